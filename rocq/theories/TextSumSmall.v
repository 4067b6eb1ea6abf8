(* The text of the short functions of sum_handle.c does what SumHandle.v says. *)
From Coq Require Import Arith NArith ZArith List Lia Bool String.
From Verif Require Import Words Spec Machine Context Hash ToolStrings SumHandle SumEntry CText TextAll TextTools ToolCalls TextSum SumCalls.
From Verif Require Import Vocab MachineFacts HashFacts TextFacts TextContext TextSteps TextHash TextHmac TextDigest TextSumSteps.
Import ListNotations.
Open Scope string_scope.
Open Scope list_scope.
Open Scope N_scope.

(* arguments *)
Ltac sev :=
  match goal with
  | |- evs _ _ _ [] _ _ = _ => apply evs_nil
  | |- evs _ _ _ (_ :: _) _ _ = _ => eapply evs_cons; [sev | sev]
  | |- eval _ _ _ (EVar _) _ _ = _ => eapply ev_var; [reflexivity | narr]
  | |- eval _ _ _ (EStar _) _ _ = _ => eapply ev_star; reflexivity
  | |- eval _ _ _ (ERef _) _ _ = _ => eapply ev_ref; [reflexivity | reflexivity]
  | |- eval _ _ _ _ _ _ = _ => reflexivity
  end.

(* the body of a function with a handle *)
Ltac opened rest :=
  match goal with |- den (f_body ?d) _ _ _ = _ => change (f_body d) with (no_handle_text ;- rest) end;
  rewrite with_handle with (p := (h_self _, 0)) by reflexivity.

Ltac opened_all :=
  match goal with |- den (f_body ?d) _ _ _ = _ => let b := eval hnf in (f_body d) in
    match b with _ ;- ?rest => opened rest end end.

(* without one *)
Ltac refused pre :=
  eapply enter_sum with (l := pre ++ combine member_names (repeat VNull 20));
    [reflexivity | reflexivity | reflexivity | tloc | ];
  let kl := fresh in let ke := fresh in let Hkl := fresh in let Hke := fresh in
  intros kl ke Hkl Hke;
  etransitivity; [eapply without_handle; [reflexivity|reflexivity|reflexivity|reflexivity|reflexivity|reflexivity|subst; reflexivity]|].

Section Small.
  Variables (E : env) (O : outside) (sg : bool) (fuel d : nat).
  Notation P := (sum_text sg).
  Notation call := (call_sum E O sg fuel d).
  Notation run := (call_sum E O sg fuel (S d)).

  Lemma text_signal_abort : forall h e k pos s,
    run "sum_handle_signal_abort" (v_handle h :: v_error e :: v_members h k pos) s =
    (x <- sum_handle_signal_abort h e ;; ret (VS R32 (fst x), None :: None :: left_members (snd x) k pos)) s.
  Proof.
    intros [h|] e k pos s.
    - set (L := fun h => frame [("sum_handle", v_handle (Some h)); ("error", v_error e)] h k pos []).
      eapply enter_sum with (l := L h) (l1 := L h); [reflexivity|reflexivity|reflexivity|reflexivity|].
      intros kl ke Hkl Hke.
      opened (SAssign (EOut "sum_handle->abort") (EInt 1) ;- SReturn (EInt 1)).
      rewrite den_seq, den_assign. change (eval E P call (EInt 1) (L h) s) with (Done (VS R32 1, L h) s). cbn [fst snd].
      change (assign E P call (EOut "sum_handle->abort") (VS R32 1) (L h) s) with (Done (L (set_abort true h)) s). cbn iota.
      rewrite den_return_int. subst ke kl. erewrite leave_plain by reflexivity. destruct e; reflexivity.
    - refused [("sum_handle", VNull); ("error", v_error e)]. destruct e; reflexivity.
  Qed.

  Lemma text_open_input : forall h filename e k pos s,
    run "sum_handle_open_input" (v_handle h :: VChars filename :: v_error e :: v_members h k pos) s =
    (r <- sum_handle_open_input (o_input O) h e ;; ret (VS R32 r, None :: None :: None :: left_members h k pos)) s.
  Proof.
    intros [h|] filename e k pos s.
    - set (L := frame [("sum_handle", v_handle (Some h)); ("filename", VChars filename); ("error", v_error e)] h k pos []).
      eapply enter_sum with (l := L) (l1 := L); [reflexivity|reflexivity|reflexivity|reflexivity|].
      intros kl ke Hkl Hke.
      set (R := fun r => ret (VS R32 r, None :: None :: None :: left_members (Some h) k pos) : M (val * list (option val))).
      assert (Hret : forall z s1, ke (FReturn (VS R32 z)) L s1 = R z s1).
      { intros. subst ke kl. erewrite leave_plain by reflexivity. destruct e; reflexivity. }
      clear Hke Hkl.
      opened_all.
      rewrite den_seq, (checked _ _ _ _ _ unit) with (m := ret tt) (g := fun _ => (if in_open (o_input O) then 1 else -1)%Z)
        (outs := fun _ => [None; None; None; None]) (lr := fun _ => L) (vs := [VBytes (h_input h, 0); VChars filename; VName "LIBCFILE_OPEN_READ"; v_error e]);
        [|sev|reflexivity|rewrite outside_call by reflexivity; reflexivity|reflexivity].
      cbn [sum_handle_open_input]. unfold bind at 1, ret at 1. destruct (in_open (o_input O)); cbn [Z.eqb Pos.eqb negb].
      + rewrite den_skip, den_return_int. apply Hret.
      + eapply failed; [reflexivity|reflexivity|intros; apply Hret].
    - refused [("sum_handle", VNull); ("filename", VChars filename); ("error", v_error e)]. destruct e; reflexivity.
  Qed.

  Lemma text_close : forall h e k pos s,
    run "sum_handle_close" (v_handle h :: v_error e :: v_members h k pos) s =
    (r <- sum_handle_close (o_input O) h e ;; ret (VS R32 r, None :: None :: left_members h k pos)) s.
  Proof.
    intros [h|] e k pos s.
    - set (L := frame [("sum_handle", v_handle (Some h)); ("error", v_error e)] h k pos []).
      eapply enter_sum with (l := L) (l1 := L); [reflexivity|reflexivity|reflexivity|reflexivity|].
      intros kl ke Hkl Hke.
      set (R := fun r => ret (VS R32 r, None :: None :: left_members (Some h) k pos) : M (val * list (option val))).
      assert (Hret : forall z s1, ke (FReturn (VS R32 z)) L s1 = R z s1).
      { intros. subst ke kl. erewrite leave_plain by reflexivity. destruct e; reflexivity. }
      clear Hke Hkl. opened_all.
      rewrite den_seq, (checked_to _ _ _ _ _ unit) with (m := ret tt) (g := fun _ => (if in_close (o_input O) then 0 else -1)%Z)
        (outs := fun _ => [None; None]) (lr := fun _ => L) (vs := [VBytes (h_input h, 0); v_error e]);
        [|sev|reflexivity|rewrite outside_call by reflexivity; reflexivity|reflexivity].
      cbn [sum_handle_close]. unfold bind at 1, ret at 1. destruct (in_close (o_input O)); cbn [Z.eqb Pos.eqb negb].
      + rewrite den_skip, den_return_int. apply Hret.
      + eapply failed; [reflexivity|reflexivity|intros; apply Hret].
    - refused [("sum_handle", VNull); ("error", v_error e)]. destruct e; reflexivity.
  Qed.

  (* ---------------------------------------------------------- sum_handle_read_buffer *)

  Definition read_text : stmt :=
    SIf (EBin OEq (EVar "buffer") ENull) (bad "LIBCERROR_ARGUMENT_ERROR_INVALID_VALUE") SSkip ;-
    SIf (EBin OGt (EVar "buffer_size") (ECast false RSz ESsizeMax)) (bad "LIBCERROR_ARGUMENT_ERROR_VALUE_OUT_OF_BOUNDS") SSkip ;-
    SAssign (EVar "read_count") (ECall "libcfile_file_read_buffer" [(EStar "sum_handle->input_handle"); (EVar "buffer"); (EVar "buffer_size"); (EVar "error"); (EVar "file->reads"); (EVar "file->offset"); (EVar "sum_handle->abort")]) ;-
    SIf (EBin OEq (EVar "read_count") (EInt (-1))) (
      SExpr (ECall "libcerror_error_set" [(EVar "error"); (EName "LIBCERROR_ERROR_DOMAIN_IO"); (EName "LIBCERROR_IO_ERROR_READ_FAILED")]) ;-
      SReturn (EInt (-1))) SSkip ;-
    SReturn (EVar "read_count").

  Notation after_read := (after_read O).
  Notation is_read := (is_read E).

  Lemma text_read_buffer : forall h bp n e k pos s, n < size_mod E ->
    run "sum_handle_read_buffer" (v_handle h :: v_bytes bp :: VU RSz n :: v_error e :: v_members h k pos) s =
    (r <- sum_handle_read_buffer E (o_input O) k pos h bp n e ;;
     ret (VS RSz r, None :: None :: None :: None ::
       match h with
       | Some x => if is_read bp n then left_members (Some (after_read x k)) (S k) (pos + Z.to_N (Z.max r 0)) else left_members h k pos
       | None => left_members None k pos
       end)) s.
  Proof.
    intros [h|] bp n e k pos s Hn.
    - set (L := fun h k pos c => frame [("sum_handle", v_handle (Some h)); ("buffer", v_bytes bp); ("buffer_size", VU RSz n); ("error", v_error e)] h k pos [("read_count", VS RSz c)]).
      eapply enter_sum with (l := frame [("sum_handle", v_handle (Some h)); ("buffer", v_bytes bp); ("buffer_size", VU RSz n); ("error", v_error e)] h k pos []) (l1 := L h k pos 0%Z);
        [reflexivity|reflexivity|reflexivity|tloc|].
      intros kl ke Hkl Hke.
      set (R := fun h k pos r => ret (VS RSz r, None :: None :: None :: None :: left_members (Some h) k pos) : M (val * list (option val))).
      assert (Hret : forall h k pos c z s1, ke (FReturn (VS RSz z)) (L h k pos c) s1 = R h k pos z s1).
      { intros. subst ke kl. erewrite leave_plain by reflexivity. destruct e, bp; reflexivity. }
      assert (Hmin : forall h k pos c s1, ke (FReturn (VS R32 (-1))) (L h k pos c) s1 = R h k pos (-1)%Z s1).
      { intros. subst ke kl. erewrite leave_plain; [|reflexivity|apply minus_one].
        destruct e, bp; reflexivity. }
      clear Hke Hkl. opened read_text. cbn [sum_handle_read_buffer]. unfold read_text.
      rewrite den_seq, (missing _ _ _ _ _ "buffer" (v_bytes bp)) with (b := match bp with Some _ => false | None => true end) by (reflexivity || apply null_bytes).
      destruct bp as [bp|]; [rewrite den_skip|etransitivity; [eapply failed with (R := R h k pos); [reflexivity|reflexivity|intros; apply Hmin]|reflexivity]].
      cbn [is_read].
      assert (Elim : eval E P call (EBin OGt (EVar "buffer_size") (ECast false RSz ESsizeMax)) (L h k pos 0%Z) s = Done (truth (ssize_max E <? n), L h k pos 0%Z) s).
      { eapply ev_bin; [eapply ev_var; reflexivity|tev|apply bin_uu; [reflexivity|discriminate|discriminate|reflexivity]]. }
      rewrite den_seq, (decided _ _ _ _ _ _ _ _ _ _ _ _ Elim). rewrite N.leb_antisym.
      destruct (ssize_max E <? n) eqn:C; cbn [negb]; [etransitivity; [eapply failed with (R := R h k pos); [reflexivity|reflexivity|intros; apply Hmin]|reflexivity]|rewrite den_skip].
      set (m := match in_read (o_input O) k with
                | None => ret (-1)%Z
                | Some most => write bp (firstn (N.to_nat (N.min most n)) (skipn (N.to_nat pos) (in_data (o_input O)))) ;;;
                               ret (Z.of_nat (List.length (firstn (N.to_nat (N.min most n)) (skipn (N.to_nat pos) (in_data (o_input O))))))
                end).
      set (R' := fun r => R (after_read h k) (S k) (pos + Z.to_N (Z.max r 0)) r).
      transitivity ((r <- m ;; r <- (if (r =? -1)%Z then fail e E_IO_READ_FAILED else ret r) ;; R' r) s).
      2:{ subst m. destruct (in_read (o_input O) k) as [most|]; [|reflexivity]. rewrite !bind_assoc. apply bind_ext. intros [] s1 _.
          unfold bind at 1 2, ret at 1 2. destruct (Z.eqb_spec (Z.of_nat (List.length (firstn (N.to_nat (N.min most n)) (skipn (N.to_nat pos) (in_data (o_input O)))))) (-1)); [lia|reflexivity]. }
      rewrite den_seq, (assigned _ _ _ _ _ Z) with (m := m) (g := VS RSz)
        (outs := fun r => [None; None; None; None; Some (VU R64 (N.of_nat (S k))); Some (VU R64 (pos + Z.to_N (Z.max r 0))); Some (v_abort (h_abort (after_read h k)))])
        (l1 := fun r => L (after_read h k) (S k) (pos + Z.to_N (Z.max r 0)) 0%Z) (lr := fun r => L (after_read h k) (S k) (pos + Z.to_N (Z.max r 0)) r)
        (vs := [VBytes (h_input h, 0); VBytes bp; VU RSz n; v_error e; VRef (VU R64 (N.of_nat k)); VRef (VU R64 pos); VRef (v_abort (h_abort h))]);
        [|sev|reflexivity| |reflexivity|intros; eapply as_s; [reflexivity|apply ts_same|reflexivity]].
      2:{ rewrite outside_call by reflexivity.
          assert (Ha : (if arrived (o_signal O) (o_looks O + k) then 1%Z else if h_abort h then 1%Z else 0%Z) =
                       (if h_abort (after_read h k) then 1%Z else 0%Z)) by (cbn [after_read set_abort h_abort]; destruct (h_abort h), (arrived (o_signal O) (o_looks O + k)); reflexivity).
          unfold sum_call. cbn [digest_function find_assoc String.eqb Ascii.eqb Bool.eqb v_abort].
          rewrite Nat2N.id, Ha. subst m. replace (N.of_nat k + 1) with (N.of_nat (S k)) by lia.
          destruct (in_read (o_input O) k) as [most|]; [|cbn [bind]; unfold bind, ret; cbn [Z.max Z.to_N]; rewrite N.add_0_r; reflexivity].
          rewrite bind_assoc. apply bind_ext. intros [] s1 _. unfold bind, ret.
          rewrite Z.max_l, <- nat_N_Z, N2Z.id by lia. reflexivity. }
      apply bind_ext. intros r s1 _. cbn [fst snd].
      rewrite den_seq. erewrite decided; [|eapply ev_bin; [eapply ev_var; reflexivity|reflexivity|apply bin_ss; [reflexivity|reflexivity|discriminate|discriminate|reflexivity]]].
      destruct (Z.eqb_spec r (-1)) as [->|Hr].
      + eapply failed; [reflexivity|reflexivity|intros; apply Hmin].
      + rewrite den_skip, den_return. erewrite ev_var; [|reflexivity|reflexivity]. apply Hret.
    - refused [("sum_handle", VNull); ("buffer", v_bytes bp); ("buffer_size", VU RSz n); ("error", v_error e)]. destruct e, bp; reflexivity.
  Qed.

  (* ---------------------------------------------------------- sum_handle_set_process_buffer_size *)

  Lemma limit64 : to_unsigned E R64 (VS RSz (2 ^ Z.of_N (bits E RSz - 1) - 1)%Z) = Some (ssize_max E).
  Proof. cbn [to_unsigned bits]. unfold ssize_max. destruct (plat64 E); reflexivity. Qed.
  Lemma size_of64 : forall n, n <= ssize_max E -> to_unsigned E RSz (VU R64 n) = Some (n mod size_mod E).
  Proof. intros n _. cbn [to_unsigned rank_eqb]. now rewrite bits_size_mod. Qed.

  Lemma text_set_process_buffer_size : forall h p str t e k pos s,
    view p s = Done str s -> until_zero str = Some t -> N.of_nat (List.length t) < size_mod E ->
    run "sum_handle_set_process_buffer_size" (v_handle h :: VChars p :: v_error e :: v_members h k pos) s =
    (x <- sum_handle_set_process_buffer_size E (o_verbose O) (o_point O) h str (N.of_nat (List.length t)) e ;;
     ret (VS R32 (fst x), None :: None :: None :: left_members (snd x) k pos)) s.
  Proof.
    intros [h|] p str t e k pos s Hv Ht Hl.
    - set (L := fun h n v r => frame [("sum_handle", v_handle (Some h)); ("string", VChars p); ("error", v_error e)] h k pos
                  [("string_length", VU RSz n); ("size_variable", VU R64 v); ("result", VS R32 r)]).
      eapply enter_sum with (l := frame [("sum_handle", v_handle (Some h)); ("string", VChars p); ("error", v_error e)] h k pos []) (l1 := L h 0 0 0%Z);
        [reflexivity|reflexivity|reflexivity|tloc|].
      intros kl ke Hkl Hke.
      set (R := fun h r => ret (VS R32 r, None :: None :: None :: left_members (Some h) k pos) : M (val * list (option val))).
      assert (Hret : forall h n v r z s1, ke (FReturn (VS R32 z)) (L h n v r) s1 = R h z s1).
      { intros. subst ke kl. erewrite leave_plain by reflexivity. destruct e; reflexivity. }
      clear Hke Hkl. opened_all. cbn [sum_handle_set_process_buffer_size].
      rewrite den_seq, (assigned _ _ _ _ _ unit) with (m := ret tt) (g := fun _ => VU RSz (N.of_nat (List.length t))) (outs := fun _ => [None])
        (l1 := fun _ => L h 0 0 0%Z) (lr := fun _ => L h (N.of_nat (List.length t)) 0 0%Z) (vs := [VChars p]);
        [|sev|reflexivity| |reflexivity|intros; eapply as_u; [reflexivity|apply tu_same|reflexivity]].
      2:{ rewrite outside_call by reflexivity. unfold sum_call. cbn [digest_function find_assoc String.eqb Ascii.eqb Bool.eqb].
          unfold bind. rewrite Hv, Ht. reflexivity. }
      unfold bind at 1, ret at 1.
      rewrite den_seq, (assigned _ _ _ _ _ (Z * option N)) with (m := byte_size_string_convert (o_verbose O) (o_point O) (Some str) (N.of_nat (List.length t)) true e)
        (g := fun x => VS R32 (fst x)) (outs := fun x => [None; None; Some (VU R64 (match snd x with Some n => n | None => 0 end)); None])
        (l1 := fun x => L h (N.of_nat (List.length t)) (match snd x with Some n => n | None => 0 end) 0%Z)
        (lr := fun x => L h (N.of_nat (List.length t)) (match snd x with Some n => n | None => 0 end) (fst x))
        (vs := [VChars p; VU RSz (N.of_nat (List.length t)); VRef (VU R64 0); v_error e]);
        [|sev|reflexivity| |reflexivity|intros; eapply as_s; [reflexivity|apply ts_same|reflexivity]].
      2:{ rewrite outside_call by reflexivity. unfold sum_call. cbn [digest_function find_assoc String.eqb Ascii.eqb Bool.eqb].
          rewrite given_back. unfold bind at 1 2 3, lift, ret at 1. rewrite Hv. reflexivity. }
      rewrite bind_assoc. apply bind_ext. intros [r v] s1 _. cbn [fst snd]. set (n := match v with Some n => n | None => 0 end).
      rewrite den_seq. erewrite decided; [|eapply ev_bin; [eapply ev_var; reflexivity|reflexivity|apply bin_ss; [reflexivity|reflexivity|discriminate|discriminate|reflexivity]]].
      destruct (r =? -1)%Z.
      { rewrite bind_assoc. eapply failed; [reflexivity|reflexivity|intros; apply Hret]. }
      erewrite decided; [|eapply ev_bin; [eapply ev_var; reflexivity|reflexivity|apply bin_ss; [reflexivity|reflexivity|discriminate|discriminate|reflexivity]]].
      destruct (negb (r =? 0)%Z).
      + erewrite decided; [|eapply ev_bin; [eapply ev_var; reflexivity|eapply ev_cast; [reflexivity|apply conv_u; apply limit64]|apply bin_uu; [reflexivity|discriminate|discriminate|reflexivity]]].
        destruct (ssize_max E <? n) eqn:C.
        * rewrite den_assign. change (eval E P call (EInt 0) (L h (N.of_nat (List.length t)) n r) s1) with (Done (VS R32 0, L h (N.of_nat (List.length t)) n r) s1). cbn [fst snd].
          erewrite as_s; [|reflexivity|apply ts_same|reflexivity]. 
          rewrite den_return. erewrite ev_var; [|reflexivity|reflexivity]. apply (Hret h (N.of_nat (List.length t)) n 0%Z).
        * apply N.ltb_ge in C. rewrite den_assign. erewrite ev_cast; [|eapply ev_var; reflexivity|apply conv_u, size_of64, C]. cbn [fst snd].
          change (assign E P call (EOut "sum_handle->process_buffer_size") (VU RSz (n mod size_mod E)) (L h (N.of_nat (List.length t)) n r) s1)
            with (Done (L (set_buffer_size (n mod size_mod E) h) (N.of_nat (List.length t)) n r) s1). cbn iota.
          rewrite den_return. erewrite ev_var; [|reflexivity|reflexivity]. apply (Hret (set_buffer_size (n mod size_mod E) h) (N.of_nat (List.length t)) n r).
      + rewrite den_skip, den_return. erewrite ev_var; [|reflexivity|reflexivity]. apply Hret.
    - refused [("sum_handle", VNull); ("string", VChars p); ("error", v_error e)]. destruct e; reflexivity.
  Qed.

  (* ---------------------------------------------------------- sum_handle_hash_values_fprint *)

  Definition format_of (a : algid) : string :=
    match a with
    | MD5 => "MD5 hash calculated over data:		%{PRIs_SYSTEM}
" | SHA1 => "SHA1 hash calculated over data:		%{PRIs_SYSTEM}
" | SHA224 => "SHA224 hash calculated over data:	%{PRIs_SYSTEM}
" | SHA256 => "SHA256 hash calculated over data:	%{PRIs_SYSTEM}
" | SHA512 => "SHA512 hash calculated over data:	%{PRIs_SYSTEM}
" end.
  Definition print_text (a : algid) : stmt :=
    SIf (EBin ONe (EOut (flag_of a)) (EInt 0)) (
      SExpr (ECall "fprintf" [(EVar "stream"); (EText (format_of a)); (EStar (string_of a))])) SSkip.

  Lemma line_text : forall a t, print_string (format_of a) t = Some (line_start a ++ t ++ [10]).
  Proof. intros [] t; reflexivity. Qed.

  Lemma text_fprint : forall h out e k pos s,
    run "sum_handle_hash_values_fprint" (v_handle h :: v_stream out :: v_error e :: v_members h k pos) s =
    (x <- sum_handle_hash_values_fprint h (is_some out) e ;;
     ret (VS R32 (fst x), None :: option_map (fun t => VArr R8 (t ++ snd x) true) out :: None :: left_members h k pos)) s.
  Proof.
    intros [h|] out e k pos s; [destruct out as [t|]|].
    - set (L := fun x => frame [("sum_handle", v_handle (Some h)); ("stream", VRef (VArr R8 (t ++ x) true)); ("error", v_error e)] h k pos []).
      eapply enter_sum with (l := frame [("sum_handle", v_handle (Some h)); ("stream", VRef (VArr R8 t true)); ("error", v_error e)] h k pos []) (l1 := L []);
        [reflexivity|reflexivity|reflexivity|unfold L; rewrite app_nil_r; reflexivity|].
      intros kl ke Hkl Hke. opened_all. cbn [sum_handle_hash_values_fprint is_some].
      rewrite den_seq, (missing _ _ _ _ _ "stream" (VRef (VArr R8 (t ++ []) true)) false) by reflexivity. rewrite den_skip.
      assert (H : forall l x s1 rest, @den E P call fuel _ (chain print_text l rest) (L x) ke s1 =
        (y <- mfold (print_slot h) l x ;; @den E P call fuel _ rest (L y) ke) s1).
      { induction l as [|a l IH]; intros x s1 rest; [reflexivity|].
        change (chain print_text (a :: l) rest) with (print_text a ;- chain print_text l rest).
        rewrite den_seq. unfold print_text at 1. erewrite flagged; [|destruct a; reflexivity]. cbn [mfold]. rewrite bind_assoc.
        unfold print_slot at 1. destruct (calculate (slots h a)); [|rewrite den_skip; apply IH].
        rewrite (called _ _ _ _ _ (list N)) with (vs := [VRef (VArr R8 (t ++ x) true); VText (format_of a); v_string (hash_string (slots h a))])
          (m := q <- lift (hash_string (slots h a)) ;; v <- view (q, 0) ;; c <- lift (until_zero v) ;; ret (line_start a ++ c ++ [10]))
          (g := fun y => Z.of_nat (List.length y)) (outs := fun y => [Some (VArr R8 ((t ++ x) ++ y) true); None; None]) (lr := fun y => L (x ++ y));
          [|destruct a; sev|reflexivity| |intros y; unfold L; rewrite app_assoc; destruct a; reflexivity].
        - rewrite !bind_assoc. apply bind_ext. intros q s2 _. rewrite !bind_assoc. apply bind_ext. intros v s3 _.
          rewrite !bind_assoc. apply bind_ext. intros c s4 _. apply IH.
        - rewrite outside_call by reflexivity. unfold sum_call. cbn [digest_function find_assoc String.eqb Ascii.eqb Bool.eqb].
          destruct (hash_string (slots h a)) as [q|]; [|reflexivity]. cbn [v_string]. unfold lift at 3. rewrite !bind_assoc.
          unfold bind, lift, ret. destruct (view (q, 0) s1) as [v s3|]; [|reflexivity]. destruct (until_zero v) as [c|]; [|reflexivity].
          rewrite line_text. reflexivity. }
      change (@den E P call fuel _ (chain print_text all_algs (SReturn (EInt 1))) (L []) ke s = (x <- (x <- mfold (print_slot h) all_algs [] ;; ret (1%Z, x)) ;;
        ret (VS R32 (fst x), None :: Some (VArr R8 (t ++ snd x) true) :: None :: left_members (Some h) k pos)) s).
      rewrite H, bind_assoc. apply bind_ext. intros y s1 _. rewrite den_return_int. subst ke kl. erewrite leave_plain by reflexivity. destruct e; reflexivity.
    - eapply enter_sum with (l := frame [("sum_handle", v_handle (Some h)); ("stream", VNull); ("error", v_error e)] h k pos []);
        [reflexivity|reflexivity|reflexivity|reflexivity|].
      intros kl ke Hkl Hke. opened_all. cbn [sum_handle_hash_values_fprint is_some].
      rewrite den_seq, (missing _ _ _ _ _ "stream" VNull true) by reflexivity. rewrite bind_assoc.
      eapply failed; [reflexivity|reflexivity|]. intros s1. subst ke kl. erewrite leave_plain by reflexivity. destruct e; reflexivity.
    - refused [("sum_handle", VNull); ("stream", v_stream out); ("error", v_error e)].
      cbn [sum_handle_hash_values_fprint]. rewrite bind_assoc. apply bind_ext. intros r s1 _. unfold bind, ret. cbn [fst snd].
      destruct out as [t|]; cbn [option_map]; [rewrite app_nil_r|]; destruct e; reflexivity.
  Qed.
End Small.
