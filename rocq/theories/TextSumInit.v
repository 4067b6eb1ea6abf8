(* The text of sum_handle_initialize and sum_handle_free does what SumHandle.v says. *)
From Coq Require Import Arith NArith ZArith List Lia Bool String.
From Verif Require Import Words Spec Machine Context Hash ToolStrings SumHandle SumEntry CText TextAll TextTools ToolCalls TextSum SumCalls.
From Verif Require Import Vocab MachineFacts HashFacts TextFacts TextContext TextSteps TextHash TextHmac TextDigest TextSizes TextSumSteps TextSumSmall TextSumHash.
Import ListNotations.
Open Scope string_scope.
Open Scope list_scope.
Open Scope N_scope.

Section Init.
  Variables (E : env) (O : outside) (sg : bool) (fuel d : nat).
  Notation P := (sum_text sg).
  Notation call := (call_sum E O sg fuel d).
  Notation run := (call_sum E O sg fuel (S d)).

  Lemma freed_chars : forall T es l p (K : flow -> locals -> M T) s,
    evs E P call es l s = Done ([VChars (p, 0)], l) s ->
    @den E P call fuel T (SExpr (ECall "memory_free" es)) l K s = (mfree p ;;; K FNext l) s.
  Proof.
    intros T es l p K s H1. rewrite den_expr, ev_call_eq. unfold bind. rewrite H1.
    cbn [fst snd is_external existsb String.eqb Ascii.eqb Bool.eqb orb external N.eqb]. unfold bind, ret.
    destruct (mfree p s) as [[] s1|]; reflexivity.
  Qed.

  Lemma den_bind : forall T U st l (K : flow -> locals -> M T) (g : T -> M U) s,
    (x <- @den E P call fuel T st l K ;; g x) s = @den E P call fuel U st l (fun fl l => x <- K fl l ;; g x) s.
  Proof. intros. unfold den, bind. destruct (exec E P call fuel st l s); reflexivity. Qed.

  (* ---------------------------------------------------------- sum_handle_free *)

  Definition free_text (a : algid) : stmt :=
    SIf (EBin ONe (EStar (context_of a)) ENull) (
        SIf (EBin ONe (ECall (digest_name a "free") [(EVar (context_of a)); (EVar "error")]) (EInt 1)) (
          SExpr (ECall "libcerror_error_set" [(EVar "error"); (EName "LIBCERROR_ERROR_DOMAIN_RUNTIME"); (EName "LIBCERROR_RUNTIME_ERROR_FINALIZE_FAILED")]) ;-
          SAssign (EVar "result") (EInt (-1))) SSkip) SSkip.
  Definition free_string_text (a : algid) : stmt :=
      SIf (EBin ONe (EStar (string_of a)) ENull) (
        SExpr (ECall "memory_free" [(EStar (string_of a))])) SSkip.

  Section Blocks.
    Variables (L : handle -> Z -> locals) (e : bool) (T : Type).
    Hypothesis V : forall z, view_of (fun h => L h z) e.
    Hypothesis HR : forall h z y, lget (L h z) "result" = Some (VS R32 z) /\ lset (L h z) "result" (VS R32 y) = Some (L h y).

    Lemma free_block : forall a h z (K : flow -> locals -> M T) R s,
      (forall h' z' s', (forall b, b <> a -> slots h' b = slots h b) -> hash_string (slots h' a) = hash_string (slots h a) -> h_input h' = h_input h -> K FNext (L h' z') s' = R z' s') ->
      @den E P call fuel T (free_text a) (L h z) K s =
      (z' <- (match context (slots h a) with
              | None => ret z
              | Some p =>
                  r <- context_free a (Some (Some p)) e ;;
                  if (fst r =? 1)%Z then ret z else error_set e E_RUNTIME_FINALIZE_FAILED ;;; ret (-1)%Z
              end) ;; R z') s.
    Proof.
      intros a h z K R s HK. unfold free_text.
      rewrite (star_given _ _ _ _ _ _ (v_ctx a (context (slots h a))) _ _ _ _ _ _ (at_context _ e (V z) h a) (null_ctx _ _)).
      destruct (context (slots h a)) as [p|] eqn:C; [|rewrite den_skip; apply HK; reflexivity].
      rewrite (checked_to _ _ _ _ _ (Z * option nat)) with (vs := [VRef (v_ctx a (context (slots h a))); v_error e])
        (m := context_free a (Some (context (slots h a))) e) (g := fst) (outs := fun r => [Some (v_ctx a (snd r)); None])
        (lr := fun r => L (set_slot a (mk_slot (calculate (slots h a)) (snd r) (hash_string (slots h a))) h) z).
      - rewrite C, bind_assoc. apply bind_ext. intros [r q] s1 _. cbn [fst snd].
        assert (HO : forall b, b <> a -> slots (set_slot a (mk_slot (calculate (slots h a)) q (hash_string (slots h a))) h) b = slots h b).
        { intros b Nb. cbn [set_slot slots]. destruct a, b; reflexivity || congruence. }
        assert (HS : hash_string (slots (set_slot a (mk_slot (calculate (slots h a)) q (hash_string (slots h a))) h) a) = hash_string (slots h a)).
        { cbn [set_slot slots]. destruct a; reflexivity. }
        destruct (r =? 1)%Z; cbn [negb].
        + rewrite den_skip. apply HK; [exact HO|exact HS|reflexivity].
        + rewrite den_seq, (erred _ _ _ _ _ _ _ E_RUNTIME_FINALIZE_FAILED e) by (reflexivity || apply (at_error _ e (V z))).
          rewrite bind_assoc. apply bind_ext. intros [] s2 _. rewrite den_assign.
          change (eval E P call (EInt (-1)) ?l s2) with (Done (VS R32 (-1), l) s2). cbn [fst snd].
          erewrite as_s; [|apply HR; exact 0%Z|apply ts_same|apply HR]. apply HK; [exact HO|exact HS|reflexivity].
      - eapply evs_cons; [eapply ev_var; [apply (at_context _ e (V z))|reflexivity]|].
        eapply evs_cons; [eapply ev_var; [apply (at_error _ e (V z))|destruct e; reflexivity]|]. apply evs_nil.
      - destruct a; reflexivity.
      - apply free_call, given_back.
      - intros [r q]. cbn [snd copy_out]. rewrite (to_context _ e (V z)). reflexivity.
    Qed.

    Lemma free_string_block : forall a h z (K : flow -> locals -> M T) s,
      @den E P call fuel T (free_string_text a) (L h z) K s =
      (match hash_string (slots h a) with None => ret tt | Some q => mfree q end ;;; K FNext (L h z)) s.
    Proof.
      intros a h z K s. unfold free_string_text.
      rewrite (star_given _ _ _ _ _ _ _ _ _ _ _ _ _ (at_string _ e (V z) h a) (null_string _)).
      destruct (hash_string (slots h a)) as [q|] eqn:C; [|reflexivity].
      apply freed_chars. eapply evs_cons; [|apply evs_nil].
      replace (VChars (q, 0)) with (v_string (hash_string (slots h a))) by (rewrite C; reflexivity). eapply ev_star; apply (at_string _ e (V z)).
    Qed.

    Definition free_texts (l : list algid) (rest : stmt) : stmt := fold_right (fun a r => free_text a ;- free_string_text a ;- r) rest l.

    Lemma free_chain : forall h0 rest (K : flow -> locals -> M T) R, 
      (forall h z s, h_input h = h_input h0 -> @den E P call fuel T rest (L h z) K s = R z s) ->
      forall l h z s, NoDup l -> (forall a, In a l -> slots h a = slots h0 a) -> h_input h = h_input h0 ->
      @den E P call fuel T (free_texts l rest) (L h z) K s = (z' <- mfold (free_slot e h0) l z ;; R z') s.
    Proof.
      intros h0 rest K R HK. induction l as [|a l IH]; intros h z s ND HS HI.
      { cbn [free_texts fold_right mfold]. rewrite bind_ret. now apply HK. }
      inversion ND as [|x y Na ND' Q]; subst. cbn [free_texts fold_right mfold]. unfold free_slot at 1. rewrite <- (HS a (or_introl eq_refl)). rewrite !bind_assoc.
      rewrite den_seq. apply free_block. intros h1 z1 s1 H1 H2 H3. rewrite den_seq, free_string_block, H2.
      destruct (hash_string (slots h a)) as [q|].
      - rewrite bind_assoc. apply bind_ext. intros [] s2 _. rewrite bind_ret. apply IH; [exact ND'| |congruence].
        intros b Hb. rewrite H1 by (intros ->; contradiction). apply HS. now right.
      - rewrite !bind_ret. apply IH; [exact ND'| |congruence].
        intros b Hb. rewrite H1 by (intros ->; contradiction). apply HS. now right.
    Qed.
  End Blocks.

  Lemma text_free : forall hp e k pos s,
    (x <- run "sum_handle_free" (v_handle_place hp :: v_error e :: v_members (match hp with Some h => h | None => None end) k pos) ;;
     ret (fst x, seen_freed (snd x))) s =
    (x <- sum_handle_free (o_input O) hp e ;;
     ret (VS R32 (fst x), freed_outs hp k pos)) s.
  Proof.
    intros [[h|]|] e k pos s.
    - set (L := fun x z => frame [("sum_handle", VRef (v_handle (Some h))); ("error", v_error e)] x k pos [("result", VS R32 z)]).
      assert (V : forall z, view_of (fun x => L x z) e) by (intros z; viewed).
      set (R := fun z s => (mfree (h_input h) ;;; result <- (if in_free (o_input O) then ret z else error_set e E_RUNTIME_FINALIZE_FAILED ;;; ret (-1)%Z) ;;
                  mfree (h_self h) ;;; ret (VS R32 result, freed_outs (Some (Some h)) k pos)) s : outcome (val * list (option val))).
      assert (H : (x <- run "sum_handle_free" (v_handle_place (Some (Some h)) :: v_error e :: v_members (Some h) k pos) ;;
                   ret (fst x, seen_freed (snd x))) s = (z <- mfold (free_slot e h) all_algs 1%Z ;; R z) s).
      { transitivity ((x <- (fun s => @den E P call fuel _ (f_body text_sum_handle_free) (L h 1%Z)
            (fun fl l => match fl with
                         | FReturn v => leave E text_sum_handle_free fl l
                         | FBreak => undef
                         | _ => @den E P call fuel _ (f_error text_sum_handle_free) l (leave E text_sum_handle_free)
                         end) s) ;; ret (fst x, seen_freed (snd x))) s).
        { unfold bind. erewrite enter_sum with (l := frame [("sum_handle", VRef (v_handle (Some h))); ("error", v_error e)] h k pos []) (l1 := L h 1%Z);
            [reflexivity|reflexivity|reflexivity|reflexivity|reflexivity|]. intros kl ke Hkl Hke. subst ke kl. reflexivity. }
        rewrite den_bind. set (ke := fun fl l => _).
        match goal with |- den (f_body ?d) _ _ _ = _ => let b := eval hnf in (f_body d) in change (f_body d) with b end.
        rewrite den_seq, (missing _ _ _ _ _ "sum_handle" (VRef (v_handle (Some h))) false) by reflexivity. rewrite den_skip.
        rewrite den_seq, (star_given _ _ _ _ _ _ (v_handle (Some h)) false) by reflexivity.
        match goal with |- den _ _ ?K _ = _ => set (K2 := K) end.
        match goal with |- den ?x _ _ _ = _ => match x with context [SIf (EBin ONe (ECall "libcfile_file_free" ?a) ?o) ?y ?n ;- ?r] => 
          change x with (free_texts all_algs (SIf (EBin ONe (ECall "libcfile_file_free" a) o) y n ;- r)) end end.
        apply (free_chain L e _ V) with (h0 := h); [intros; split; reflexivity| |repeat constructor; cbn; intuition congruence|reflexivity|reflexivity].
        intros h1 z s1 HI. rewrite den_seq.
        set (L2 := fun z => ("sum_handle", VRef (v_handle (Some h))) :: ("error", v_error e) :: ("sum_handle->input_handle", VRef VNull) :: skipn 3 (L h1 z)).
        rewrite (checked_to _ _ _ _ _ unit) with (vs := [VRef (VBytes (h_input h1, 0)); v_error e]) (m := mfree (h_input h1))
          (g := fun _ => (if in_free (o_input O) then 1 else -1)%Z) (outs := fun _ => [Some VNull; None]) (lr := fun _ => L2 z);
          [|sev|reflexivity| |reflexivity].
        2:{ rewrite outside_call by reflexivity. reflexivity. }
        unfold R. rewrite HI. apply bind_ext. intros [] s2 _.
        assert (HE : forall y s3, @den E P call fuel _ (SExpr (ECall "memory_free" [EStar "sum_handle"]);- SAssign (EStar "sum_handle") ENull) (L2 y) K2 s3 =
                    (mfree (h_self h) ;;; ret (VS R32 y, freed_outs (Some (Some h)) k pos)) s3).
        { intros y s3. rewrite den_seq. erewrite freed; [|eapply evs_cons; [eapply ev_star; reflexivity|apply evs_nil]].
          apply bind_ext. intros [] s4 _. rewrite den_assign. change (eval E P call ENull (L2 y) s4) with (Done (VNull, L2 y) s4). cbn [fst snd].
          erewrite as_star; [|reflexivity|reflexivity|reflexivity]. unfold K2. rewrite den_return. erewrite ev_var; [|reflexivity|reflexivity].
          unfold ke. unfold bind. erewrite leave_plain by reflexivity. destruct e; reflexivity. }
        destruct (in_free (o_input O)).
        - change (negb (1 =? 1)%Z) with false. cbn iota. rewrite den_skip. rewrite bind_ret. apply HE.
        - change (negb (-1 =? 1)%Z) with true. cbn iota. rewrite den_seq, (erred _ _ _ _ _ _ _ E_RUNTIME_FINALIZE_FAILED e) by reflexivity.
          rewrite bind_assoc. apply bind_ext. intros [] s3 _. rewrite den_assign.
          change (eval E P call (EInt (-1)) (L2 z) s3) with (Done (VS R32 (-1), L2 z) s3). cbn [fst snd].
          rewrite (as_s _ _ _ _ _ _ _ _ (-1)%Z (L2 (-1)%Z)) by (reflexivity || apply ts_same). rewrite bind_ret. apply HE. }
      rewrite H. cbn [sum_handle_free]. rewrite bind_assoc. apply bind_ext. intros z s1 _. unfold R. rewrite bind_assoc. apply bind_ext. intros [] s2 _.
      rewrite bind_assoc. apply bind_ext. intros z1 s3 _. rewrite bind_assoc. apply bind_ext. intros [] s4 _. reflexivity.
    - unfold bind at 1. erewrite enter_sum with (l := ("sum_handle", VRef VNull) :: ("error", v_error e) :: combine member_names (repeat VNull 20)); [| reflexivity|reflexivity|reflexivity|reflexivity|].
      2:{ intros kl ke Hkl Hke. match goal with |- den (f_body ?d) _ _ _ = _ => let b := eval hnf in (f_body d) in change (f_body d) with b end.
          rewrite den_seq, (missing _ _ _ _ _ "sum_handle" (VRef VNull) false) by reflexivity. rewrite den_skip.
          rewrite den_seq, (star_given _ _ _ _ _ _ VNull true) by reflexivity. rewrite den_skip, den_return.
          erewrite ev_var; [|reflexivity|reflexivity]. cbn [fst snd]. subst ke kl. erewrite leave_plain by reflexivity. reflexivity. }
      destruct e; reflexivity.
    - unfold bind at 1. erewrite enter_sum with (l := ("sum_handle", VNull) :: ("error", v_error e) :: combine member_names (repeat VNull 20)); [| reflexivity|reflexivity|reflexivity|reflexivity|].
      2:{ intros kl ke Hkl Hke. eapply without_handle; [reflexivity|reflexivity|reflexivity|reflexivity|reflexivity|reflexivity|subst; reflexivity]. }
      cbn [sum_handle_free]. unfold bind, ret. destruct (fail e E_ARGUMENT_INVALID_VALUE s) as [r s1|]; [|reflexivity]. destruct e; reflexivity.
  Qed.

  (* ---------------------------------------------------------- sum_handle_initialize *)

  Lemma string_allocated : forall n s, n < 2 ^ 32 ->
    call "system_string_allocate" [VS R32 (Z.of_N n)] s =
    (p <- allocate_bytes E n ;; ret (v_string p, [None])) s.
  Proof.
    intros n s H. rewrite outside_call by reflexivity. unfold sum_call. cbn [digest_function find_assoc String.eqb Ascii.eqb Bool.eqb].
    cbn [to_unsigned]. replace (Z.to_N (Z.of_N n mod 2 ^ Z.of_N (bits E RSz))) with n.
    2:{ rewrite Z.mod_small; [lia|]. split; [lia|]. cbn [bits]. destruct (plat64 E); cbn; lia. }
    unfold lift. rewrite bind_ret. unfold bind, ret. destruct (allocate_bytes E n s) as [[p|] s1|]; reflexivity.
  Qed.

  Lemma clear_ctx : forall a p, cleared (VRef (v_ctx a p)) = Some VNull.
  Proof. intros a [p|]; reflexivity. Qed.
  Lemma clear_string : forall q, cleared (VRef (v_string q)) = Some VNull.
  Proof. intros [q|]; reflexivity. Qed.

  Lemma text_initialize : forall hp junk k pos e s,
    (x <- run "sum_handle_initialize" (v_handle_place hp :: v_error e ::
            match hp with None => v_members None k pos | Some None => v_members (Some junk) k pos | Some (Some h) => v_members (Some h) k pos end) ;;
     ret (fst x, seen (snd x))) s =
    (x <- sum_handle_initialize E hp e ;;
     ret (VS R32 (fst x),
          match hp with
          | None => repeat None 22
          | Some None => match snd x with Some h => Some (v_handle (Some h)) :: None :: left_members (Some h) 0 0 | None => Some VNull :: None :: repeat (Some VNull) 20 end
          | Some (Some h) => Some (v_handle (snd x)) :: None :: left_members (snd x) k pos
          end)) s.
  Proof.
    intros [[h|]|] junk k pos e s.
    - unfold bind at 1. erewrite enter_sum with (l := frame [("sum_handle", VRef (v_handle (Some h))); ("error", v_error e)] h k pos []);
        [| reflexivity|reflexivity|reflexivity|reflexivity|].
      2:{ intros kl ke Hkl Hke. match goal with |- den (f_body ?d) _ _ _ = _ => let b := eval hnf in (f_body d) in change (f_body d) with b end.
          rewrite den_seq, (missing _ _ _ _ _ "sum_handle" (VRef (v_handle (Some h))) false) by reflexivity. rewrite den_skip.
          rewrite den_seq, (star_given _ _ _ _ _ _ (v_handle (Some h)) false) by reflexivity.
          eapply failed; [reflexivity|reflexivity|]. intros s1. subst ke kl. erewrite leave_plain by reflexivity.
          instantiate (1 := fun r => ret (VS R32 r, Some (v_handle (Some h)) :: None :: left_members (Some h) k pos)). destruct e; reflexivity. }
      cbn [sum_handle_initialize]. unfold bind, ret. destruct (fail e E_RUNTIME_VALUE_ALREADY_SET s) as [r s1|]; reflexivity.
    - set (L := fun p vs => ("sum_handle", VRef p) :: ("error", v_error e) :: combine member_names (map VRef vs)).
      transitivity ((x <- (fun s => @den E P call fuel _ (f_body text_sum_handle_initialize) (L VNull (members junk k pos))
            (fun fl l => match fl with
                         | FReturn v => leave E text_sum_handle_initialize fl l
                         | FBreak => undef
                         | _ => @den E P call fuel _ (f_error text_sum_handle_initialize) l (leave E text_sum_handle_initialize)
                         end) s) ;; ret (fst x, seen (snd x))) s).
      { unfold bind. erewrite enter_sum with (l := L VNull (members junk k pos)) (l1 := L VNull (members junk k pos));
            [reflexivity|reflexivity|reflexivity|reflexivity|reflexivity|]. intros kl ke Hkl Hke. subst ke kl. reflexivity. }
      rewrite den_bind. set (ke := fun fl l => _).
      match goal with |- den (f_body ?d) _ _ _ = _ => let b := eval hnf in (f_body d) in change (f_body d) with b end.
      rewrite den_seq, (missing _ _ _ _ _ "sum_handle" (VRef VNull) false) by reflexivity. rewrite den_skip.
      rewrite den_seq, (star_given _ _ _ _ _ _ VNull true) by reflexivity. rewrite den_skip.
      cbn [sum_handle_initialize]. rewrite bind_assoc.
      rewrite den_seq, (assigned _ _ _ _ _ (option nat)) with (vs := []) (m := allocate (OBytes [0]) E)
        (g := fun p => match p with Some q => VBytes (q, 0) | None => VNull end) (outs := fun _ => [])
        (l1 := fun _ => L VNull (members junk k pos)) (lr := fun p => L match p with Some q => VBytes (q, 0) | None => VNull end (members junk k pos));
        [|reflexivity|reflexivity|rewrite outside_call by reflexivity; reflexivity|reflexivity|intros [q|] s1 _; eapply as_star; reflexivity].
      assert (HE0 : forall vs s1, List.length vs = 20%nat -> ke FError (L VNull vs) s1 = ret (VS R32 (-1), Some VNull :: None :: repeat (Some VNull) 20) s1).
      { intros vs s1 HL. unfold ke. change (f_error text_sum_handle_initialize) with
          (SIf (EBin ONe (EStar "sum_handle") ENull) (SExpr (ECall "memory_free" [(EStar "sum_handle")]) ;- SAssign (EStar "sum_handle") ENull) SSkip ;- SReturn (EInt (-1))).
        rewrite den_bind, den_seq, (star_given _ _ _ _ _ _ VNull true) by reflexivity. rewrite den_skip, den_return_int. unfold bind.
        erewrite leave_plain by reflexivity. do 20 (destruct vs as [|? vs]; [discriminate HL|]). destruct vs; [|discriminate HL]. destruct e; reflexivity. }
      assert (HE1 : forall q vs s1, List.length vs = 20%nat -> ke FError (L (VBytes (q, 0)) vs) s1 = (mfree q ;;; ret (VS R32 (-1), Some VNull :: None :: repeat (Some VNull) 20)) s1).
      { intros q vs s1 HL. unfold ke. change (f_error text_sum_handle_initialize) with
          (SIf (EBin ONe (EStar "sum_handle") ENull) (SExpr (ECall "memory_free" [(EStar "sum_handle")]) ;- SAssign (EStar "sum_handle") ENull) SSkip ;- SReturn (EInt (-1))).
        rewrite den_bind, den_seq, (star_given _ _ _ _ _ _ (VBytes (q, 0)) false) by reflexivity.
        rewrite den_seq. erewrite freed; [|eapply evs_cons; [eapply ev_star; reflexivity|apply evs_nil]]. apply bind_ext. intros [] s2 _.
        rewrite den_assign. change (eval E P call ENull ?l s2) with (Done (VNull, l) s2). cbn [fst snd].
        erewrite as_star; [|reflexivity|reflexivity|reflexivity]. rewrite den_return_int. unfold bind.
        erewrite leave_plain by reflexivity. do 20 (destruct vs as [|? vs]; [discriminate HL|]). destruct vs; [|discriminate HL]. destruct e; reflexivity. }
      apply bind_ext. intros [self|] s1 _.
      2:{ rewrite den_seq, (star_missing _ _ _ _ _ _ VNull true) by reflexivity.
          rewrite jumped with (k := E_MEMORY_INSUFFICIENT) (e := e) by reflexivity. rewrite bind_assoc. unfold fail. rewrite bind_assoc. apply bind_ext. intros [] s2 _.
          apply HE0. reflexivity. }
      rewrite den_seq, (star_missing _ _ _ _ _ _ (VBytes (self, 0)) false) by reflexivity. rewrite den_skip.
      set (none := VNull :: flat_map (fun a => [VU R8 0; VNull; VNull]) all_algs ++ [VU RSz 0; VS R32 0%Z; VU R64 0; VU R64 0]).
      assert (HC : map cleared (map VRef (members junk k pos)) = map Some none).
      { unfold members, none. cbn [flat_map all_algs map app]. rewrite !clear_ctx, !clear_string. reflexivity. }
      rewrite den_seq, den_if. erewrite ev_bin with (l1 := L (VBytes (self, 0)) none) (v := VBytes (self, 0));
        [|eapply ev_call with (outs := None :: None :: map Some none); [sev|reflexivity| |reflexivity]|reflexivity|reflexivity].
      2:{ rewrite outside_call by reflexivity. rewrite <- HC. reflexivity. }
      cbn [fst snd]. change (test ?x) with (Some false). cbn iota. rewrite den_skip.
      rewrite bind_assoc.
      set (with_input := fun v q b n => v :: flat_map (fun a => match a with MD5 => [VU R8 b; VNull; q] | _ => [VU R8 0; VNull; VNull] end) all_algs ++
                         [VU RSz n; VS R32 0%Z; VU R64 0; VU R64 0]).
      rewrite den_seq, (checked_to _ _ _ _ _ (option nat)) with (vs := [VRef VNull; v_error e]) (m := allocate (OBytes []) E)
        (g := fun p => match p with Some _ => 1 | None => -1 end%Z) (outs := fun p => [Some match p with Some q => VBytes (q, 0) | None => VNull end; None])
        (lr := fun p => L (VBytes (self, 0)) (with_input match p with Some q => VBytes (q, 0) | None => VNull end VNull 0 0));
        [|sev|reflexivity| |intros [q|]; reflexivity].
      2:{ rewrite outside_call by reflexivity. unfold sum_call. cbn [digest_function find_assoc String.eqb Ascii.eqb Bool.eqb].
          unfold bind, ret. destruct (allocate (OBytes []) E s1) as [[q|] s2|]; reflexivity. }
      apply bind_ext. intros [input|] s2 _.
      2:{ change (negb (-1 =? 1)%Z) with true. cbn iota. rewrite jumped with (k := E_RUNTIME_INITIALIZE_FAILED) (e := e) by reflexivity.
          unfold fail. rewrite !bind_assoc. apply bind_ext. intros [] s3 _. rewrite HE1 by reflexivity; rewrite bind_ret, bind_assoc. reflexivity. }
      change (negb (1 =? 1)%Z) with false. cbn iota. rewrite den_skip, bind_assoc.
      rewrite den_seq, (assigned _ _ _ _ _ (option nat)) with (vs := [VS R32 33]) (m := allocate_bytes E (string_size MD5)) (g := v_string) (outs := fun _ => [None])
        (l1 := fun _ => L (VBytes (self, 0)) (with_input (VBytes (input, 0)) VNull 0 0))
        (lr := fun q => L (VBytes (self, 0)) (with_input (VBytes (input, 0)) (v_string q) 0 0));
        [|sev|reflexivity|apply (string_allocated 33); reflexivity|reflexivity|intros [q|] s3 _; eapply as_star; reflexivity].
      apply bind_ext. intros [q|] s3 _.
      2:{ rewrite den_seq, (star_missing _ _ _ _ _ _ VNull true) by reflexivity.
          rewrite jumped with (k := E_MEMORY_INSUFFICIENT) (e := e) by reflexivity.
          unfold fail. rewrite !bind_assoc. apply bind_ext. intros [] s4 _. rewrite HE1 by reflexivity; rewrite bind_ret, bind_assoc. reflexivity. }
      rewrite den_seq, (star_missing _ _ _ _ _ _ (VChars (q, 0)) false) by reflexivity. rewrite den_skip.
      rewrite den_seq, den_assign. change (eval E P call (EInt 1) ?l s3) with (Done (VS R32 1, l) s3). cbn [fst snd].
      change (assign E P call (EOut "sum_handle->calculate_md5") (VS R32 1) (L (VBytes (self, 0)) (with_input (VBytes (input, 0)) (v_string (Some q)) 0 0)) s3)
        with (Done (L (VBytes (self, 0)) (with_input (VBytes (input, 0)) (v_string (Some q)) 1 0)) s3). cbn iota.
      rewrite den_seq, den_assign. change (eval E P call (EInt 32768) ?l s3) with (Done (VS R32 32768, l) s3). cbn [fst snd].
      replace (assign E P call (EOut "sum_handle->process_buffer_size") (VS R32 32768) (L (VBytes (self, 0)) (with_input (VBytes (input, 0)) (v_string (Some q)) 1 0)) s3)
        with (Done (L (VBytes (self, 0)) (with_input (VBytes (input, 0)) (v_string (Some q)) 1 32768)) s3).
      2:{ cbn [assign]. change (lget ?l "sum_handle->process_buffer_size") with (Some (VRef (VU RSz 0))). cbn iota.
          cbn [to_unsigned bits]. destruct (plat64 E); reflexivity. }
      cbn iota. rewrite den_return_int. unfold ke, bind. erewrite leave_plain by reflexivity. unfold seen. destruct e; reflexivity.
    - unfold bind at 1. erewrite enter_sum with (l := ("sum_handle", VNull) :: ("error", v_error e) :: combine member_names (repeat VNull 20)); [| reflexivity|reflexivity|reflexivity|reflexivity|].
      2:{ intros kl ke Hkl Hke. eapply without_handle; [reflexivity|reflexivity|reflexivity|reflexivity|reflexivity|reflexivity|subst; reflexivity]. }
      cbn [sum_handle_initialize]. unfold bind, ret. destruct (fail e E_ARGUMENT_INVALID_VALUE s) as [r s1|]; [|reflexivity]. destruct e; reflexivity.
  Qed.
End Init.
