(* The text of sum_handle_finalize_integrity_hash does what SumHandle.v says. *)
From Coq Require Import Arith NArith ZArith List Lia Bool String.
From Verif Require Import Words Spec Machine Context Hash ToolStrings SumHandle SumEntry CText TextAll TextTools ToolCalls TextSum SumCalls.
From Verif Require Import Vocab MachineFacts HashFacts TextFacts TextContext TextSteps TextHash TextHmac TextDigest TextSizes TextSumSteps TextSumSmall TextSumHash.
Import ListNotations.
Open Scope string_scope.
Open Scope list_scope.
Open Scope N_scope.

Definition array_of (a : algid) : string := String.append "calculated_" (String.append (alg_name a) "_hash").
Definition arrays (hash : algid -> nat) : locals := map (fun a => (array_of a, VBytes (hash a, 0))) all_algs.
Definition pops (hash : algid -> nat) : M unit :=
  pop_local (hash MD5) ;;; pop_local (hash SHA1) ;;; pop_local (hash SHA224) ;;; pop_local (hash SHA256) ;;; pop_local (hash SHA512).

Definition copy_error (a : algid) : string :=
  match a with MD5 => "LIBHMAC_RUNTIME_ERROR_SET_FAILED" | _ => "LIBCERROR_RUNTIME_ERROR_INITIALIZE_FAILED" end.
Definition finalize_text (a : algid) : stmt :=
  SIf (EBin ONe (EOut (flag_of a)) (EInt 0)) (
    SIf (EBin OEq (EStar (string_of a)) ENull) (
      SExpr (ECall "libcerror_error_set" [(EVar "error"); (EName "LIBCERROR_ERROR_DOMAIN_RUNTIME"); (EName "LIBCERROR_RUNTIME_ERROR_VALUE_MISSING")]) ;-
      SReturn (EInt (-1))) SSkip ;-
    SIf (EBin ONe (ECall (digest_name a "finalize") [(EStar (context_of a)); (EVar (array_of a)); (EInt (Z.of_N (a_hs (alg_of a)))); (EVar "error")]) (EInt 1)) (
      SExpr (ECall "libcerror_error_set" [(EVar "error"); (EName "LIBCERROR_ERROR_DOMAIN_RUNTIME"); (EName "LIBCERROR_RUNTIME_ERROR_FINALIZE_FAILED")]) ;-
      SReturn (EInt (-1))) SSkip ;-
    SIf (EBin ONe (ECall "digest_hash_copy_to_string" [(EVar (array_of a)); (EInt (Z.of_N (a_hs (alg_of a)))); (EStar (string_of a)); (EInt (Z.of_N (string_size a))); (EVar "error")]) (EInt 1)) (
      SExpr (ECall "libcerror_error_set" [(EVar "error"); (EName "LIBCERROR_ERROR_DOMAIN_RUNTIME"); (EName (copy_error a))]) ;-
      SReturn (EInt (-1))) SSkip) SSkip.

Section End_.
  Variables (E : env) (O : outside) (sg : bool) (fuel d : nat).
  Notation P := (sum_text sg).
  Notation call := (call_sum E O sg fuel d).
  Notation run := (call_sum E O sg fuel (S d)).

  Lemma small_size : forall z, (0 <= z < 256)%Z -> to_unsigned E RSz (VS R32 z) = Some (Z.to_N z).
  Proof.
    intros z H. cbn [to_unsigned]. rewrite Z.mod_small; [reflexivity|].
    unfold bits. destruct (plat64 E); cbn; lia.
  Qed.

  Lemma finalize_call : forall a p b e s,
    call (digest_name a "finalize") [v_ctx a p; v_bytes b; VS R32 (Z.of_N (a_hs (alg_of a))); v_error e] s =
    (r <- context_finalize E a p b (a_hs (alg_of a)) e ;; ret (VS R32 r, [None; None; None; None])) s.
  Proof.
    intros a p b e s. rewrite outside_call by (destruct a; reflexivity).
    transitivity (digest_call E a DFinalize [v_ctx a p; v_bytes b; VS R32 (Z.of_N (a_hs (alg_of a))); v_error e] s); [destruct a; reflexivity|].
    cbn [digest_call]. rewrite ctx_back, given_back, bytes_back, small_size by (destruct a; split; apply N2Z.is_nonneg || reflexivity). rewrite N2Z.id. reflexivity.
  Qed.
  Lemma copy_call : forall a b q e s,
    call "digest_hash_copy_to_string" [v_bytes b; VS R32 (Z.of_N (a_hs (alg_of a))); v_chars q; VS R32 (Z.of_N (string_size a)); v_error e] s =
    (r <- digest_hash_copy_to_string E b (a_hs (alg_of a)) q (string_size a) e ;; ret (VS R32 r, [None; None; None; None; None])) s.
  Proof.
    intros a b q e s. rewrite outside_call by reflexivity. cbn [sum_call digest_function find_assoc String.eqb Ascii.eqb Bool.eqb].
    rewrite !small_size by (destruct a; split; apply N2Z.is_nonneg || reflexivity). rewrite !N2Z.id, given_back, bytes_back. destruct q; reflexivity.
  Qed.

  Lemma finalize_block : forall L e hash, view_of L e ->
    (forall h a, lget (L h) (array_of a) = Some (VBytes (hash a, 0))) ->
    forall T a h (K : flow -> locals -> M T) s,
    @den E P call fuel T (finalize_text a) (L h) K s =
    (r <- finalize_slot E e hash a h ;; K (if (fst r =? 1)%Z then FNext else FReturn (VS R32 (fst r))) (L (snd r))) s.
  Proof.
    intros L e hash V HA T a h K s. unfold finalize_text, finalize_slot. rewrite (flagged _ _ _ _ _ _ _ _ _ _ _ _ (at_flag L e V h a)).
    destruct (calculate (slots h a)) eqn:C; [|reflexivity].
    rewrite den_seq, (star_missing _ _ _ _ _ _ (v_string (hash_string (slots h a))) _ _ _ _ _ _ (at_string L e V h a) (null_string _)).
    destruct (hash_string (slots h a)) as [q|] eqn:Q.
    2:{ rewrite den_seq, (erred _ _ _ _ _ _ _ E_RUNTIME_VALUE_MISSING e) by (reflexivity || apply (at_error L e V)).
        unfold fail. rewrite !bind_assoc. apply bind_ext. intros [] s1 _. rewrite den_return_int. reflexivity. }
    rewrite den_skip, den_seq.
    rewrite (checked _ _ _ _ _ Z) with (vs := [v_ctx a (context (slots h a)); v_bytes (Some (hash a, 0)); VS R32 (Z.of_N (a_hs (alg_of a))); v_error e])
      (m := context_finalize E a (context (slots h a)) (Some (hash a, 0)) (a_hs (alg_of a)) e) (g := fun r => r) (outs := fun _ => [None; None; None; None]) (lr := fun _ => L h).
    2:{ eapply evs_cons; [eapply ev_star; apply (at_context L e V)|].
        eapply evs_cons; [eapply ev_var; [apply HA|reflexivity]|].
        eapply evs_cons; [reflexivity|].
        eapply evs_cons; [eapply ev_var; [apply (at_error L e V)|destruct e; reflexivity]|]. apply evs_nil. }
    2:{ destruct a; reflexivity. }
    2:{ apply finalize_call. }
    2:{ reflexivity. }
    rewrite bind_assoc. apply bind_ext. intros r s1 _. destruct (r =? 1)%Z; cbn [negb].
    2:{ rewrite den_seq, (erred _ _ _ _ _ _ _ E_RUNTIME_FINALIZE_FAILED e) by (reflexivity || apply (at_error L e V)).
        unfold fail. rewrite !bind_assoc. apply bind_ext. intros [] s2 _. rewrite den_return_int. reflexivity. }
    rewrite den_skip.
    rewrite (checked _ _ _ _ _ Z) with (vs := [v_bytes (Some (hash a, 0)); VS R32 (Z.of_N (a_hs (alg_of a))); v_chars (Some (q, 0)); VS R32 (Z.of_N (string_size a)); v_error e])
      (m := digest_hash_copy_to_string E (Some (hash a, 0)) (a_hs (alg_of a)) (Some (q, 0)) (string_size a) e) (g := fun r => r) (outs := fun _ => [None; None; None; None; None]) (lr := fun _ => L h).
    2:{ eapply evs_cons; [eapply ev_var; [apply HA|reflexivity]|].
        eapply evs_cons; [reflexivity|].
        eapply evs_cons; [eapply ev_star; rewrite (at_string L e V), Q; reflexivity|].
        eapply evs_cons; [reflexivity|].
        eapply evs_cons; [eapply ev_var; [apply (at_error L e V)|destruct e; reflexivity]|]. apply evs_nil. }
    2:{ reflexivity. }
    2:{ apply copy_call. }
    2:{ reflexivity. }
    rewrite !bind_assoc. apply bind_ext. intros r2 s2 _. destruct (r2 =? 1)%Z; cbn [negb]; [reflexivity|].
    rewrite den_seq, (erred _ _ _ _ _ _ _ (match a with MD5 => E_RUNTIME_SET_FAILED | _ => E_RUNTIME_INITIALIZE_FAILED end) e)
      by (destruct a; reflexivity || apply (at_error L e V)).
    unfold fail. rewrite !bind_assoc. apply bind_ext. intros [] s3 _. rewrite den_return_int. reflexivity.
  Qed.

  Lemma finalize_steps_same : forall hash l h e s,
    match steps (finalize_slot E e hash) l h s with
    | Done (z, h1) _ => h1 = h /\ (z = 1%Z \/ z = (-1)%Z)
    | Undef => True
    end.
  Proof.
    intros hash. induction l as [|a l IH]; intros h e s; [cbn; auto|]. cbn [steps]. unfold finalize_slot at 1, bind at 1.
    destruct (calculate (slots h a)); [|cbn [ret fst snd]; unfold ret; cbn [fst snd Z.eqb Pos.eqb]; apply IH].
    destruct (hash_string (slots h a)) as [q|].
    2:{ unfold fail, bind, ret. destruct (error_set e E_RUNTIME_VALUE_MISSING s) as [[] s2|]; [|exact I]. cbn. auto. }
    unfold bind at 1. destruct (context_finalize E a (context (slots h a)) (Some (hash a, 0)) (a_hs (alg_of a)) e s) as [r s1|]; [|exact I].
    destruct (r =? 1)%Z.
    2:{ unfold fail, bind, ret. destruct (error_set e E_RUNTIME_FINALIZE_FAILED s1) as [[] s2|]; [|exact I]. cbn. auto. }
    unfold bind at 1 2. destruct (digest_hash_copy_to_string E (Some (hash a, 0)) (a_hs (alg_of a)) (Some (q, 0)) (string_size a) e s1) as [r2 s2|]; [|exact I].
    destruct (r2 =? 1)%Z; [unfold ret at 1 2; cbn [fst snd Z.eqb Pos.eqb]; apply IH|].
    unfold fail, bind, ret. match goal with |- context [error_set e ?k s2] => destruct (error_set e k s2) as [[] s3|] end; [|exact I]. cbn. auto.
  Qed.

  Notation def := text_sum_handle_finalize_integrity_hash.

  (* the local arrays around the body *)
  Lemma run_arrays : forall args l m (g : Z -> val * list (option val)) s,
    bind_params E (f_params def) args = Some l ->
    (forall kl ke hash s2, kl = leave E def ->
                ke = (fun fl l => match fl with
                             | FReturn v => kl fl l
                             | FBreak => undef
                             | _ => @den E P call fuel _ (f_error def) l kl
                             end) ->
       @den E P call fuel _ (f_body def) (l ++ arrays hash) ke s2 = (r <- m hash ;; pops hash ;;; ret (g r)) s2) ->
    run "sum_handle_finalize_integrity_hash" args s = (r <- with_hashes E m ;; ret (g r)) s.
  Proof.
    intros args l m g s H1 H2. rewrite call_sum_eq. change (find_fun (p_functions P) "sum_handle_finalize_integrity_hash") with (Some def). cbn iota.
    rewrite run_fun_eq, H1.
    unfold with_hashes, hash_array. rewrite !bind_assoc.
    change (f_arrays def) with [("calculated_md5_hash", R8, 16%nat); ("calculated_sha1_hash", R8, 20%nat); ("calculated_sha224_hash", R8, 28%nat); ("calculated_sha256_hash", R8, 32%nat); ("calculated_sha512_hash", R8, 64%nat)].
    change (f_locals def) with (@nil (string * ctype * expr)).
    cbn [enter_arrays enter_locals]. unfold bind, push_local, ret.
    match goal with |- _ = match match m ?hash ?x with _ => _ end with _ => _ end => transitivity ((r <- m hash ;; pops hash ;;; ret (g r)) x) end.
    - exact (H2 _ _ _ _ eq_refl eq_refl).
    - unfold bind, pops, bind, ret. match goal with |- match ?x with _ => _ end = _ => destruct x as [r s3|]; [|reflexivity] end.
      repeat match goal with |- context [pop_local ?p ?x] => destruct (pop_local p x) as [? ?|]; [|reflexivity] end. reflexivity.
  Qed.

  Lemma leave_hashes : forall z l h hash s, z = 1%Z \/ z = (-1)%Z ->
    (forall a, lget l (array_of a) = Some (VBytes (hash a, 0))) -> outs_of 22 l = h ->
    leave E def (FReturn (VS R32 z)) l s = (pops hash ;;; ret (VS R32 z, h)) s.
  Proof.
    intros z l h hash s Hz HA HO. unfold leave. change (f_ret def) with (true, R32).
    assert (C : convert E (fst (true, R32)) (snd (true, R32)) (VS R32 z) = Some (VS R32 z)) by (destruct Hz as [Q|Q]; rewrite Q; reflexivity).
    rewrite C. unfold lift. rewrite bind_ret.
    change (f_arrays def) with (map (fun a => (array_of a, R8, N.to_nat (a_hs (alg_of a)))) all_algs).
    cbn [map all_algs leave_arrays leave_frame]. rewrite !HA. unfold pops. rewrite !bind_assoc.
    unfold bind, ret.
    repeat match goal with |- context [pop_local ?p ?x] => destruct (pop_local p x) as [? ?|]; [|reflexivity] end. rewrite <- HO. reflexivity.
  Qed.

  Lemma text_finalize_integrity_hash : forall h e k pos s,
    run "sum_handle_finalize_integrity_hash" (v_handle h :: v_error e :: v_members h k pos) s =
    (r <- finalize_integrity_hash E h e ;; ret (VS R32 r, None :: None :: left_members h k pos)) s.
  Proof.
    intros [h|] e k pos s.
    - apply run_arrays with (l := frame [("sum_handle", v_handle (Some h)); ("error", v_error e)] h k pos []); [reflexivity|].
      intros kl ke hash s2 Hkl Hke.
      set (L := fun x => frame [("sum_handle", v_handle (Some h)); ("error", v_error e)] x k pos (arrays hash)).
      change (frame [("sum_handle", v_handle (Some h)); ("error", v_error e)] h k pos [] ++ arrays hash) with (L h).
      assert (V : view_of L e) by viewed.
      assert (HA : forall x a, lget (L x) (array_of a) = Some (VBytes (hash a, 0))) by (intros x []; reflexivity).
      assert (Hret : forall z x s1, z = 1%Z \/ z = (-1)%Z ->
        ke (FReturn (VS R32 z)) (L x) s1 = (pops hash ;;; ret (VS R32 z, None :: None :: left_members (Some x) k pos)) s1).
      { intros z x s1 Hz. subst ke kl. apply leave_hashes; [exact Hz|apply HA|destruct e; reflexivity]. }
      opened (chain finalize_text all_algs (SReturn (EInt 1))).
      rewrite (chain_run _ _ _ _ _ _ (finalize_slot E e hash) L (fun z => FReturn (VS R32 z))) by (discriminate || (intros; apply finalize_block; exact V || exact HA)).
      rewrite bind_assoc. unfold bind at 1 2. pose proof (finalize_steps_same hash all_algs h e s2) as Q.
      destruct (steps (finalize_slot E e hash) all_algs h s2) as [[z h1] s1|]; [|reflexivity]. cbn [fst snd].
      destruct Q as [-> Q]. rewrite bind_ret. destruct Q as [-> | ->]; cbn [Z.eqb Pos.eqb]; [rewrite den_return_int|]; apply Hret; auto.
    - apply run_arrays with (l := [("sum_handle", VNull); ("error", v_error e)] ++ combine member_names (repeat VNull 20)); [reflexivity|].
      intros kl ke hash s2 Hkl Hke.
      change (f_body def) with (no_handle_text ;- chain finalize_text all_algs (SReturn (EInt 1))). unfold no_handle_text.
      rewrite den_seq, (missing _ _ _ _ _ "sum_handle" VNull true) by reflexivity.
      rewrite den_seq, (erred _ _ _ _ _ _ _ E_ARGUMENT_INVALID_VALUE e) by reflexivity.
      unfold fail. rewrite !bind_assoc. apply bind_ext. intros [] s1 _. rewrite den_return_int. subst ke kl.
      rewrite bind_ret. apply leave_hashes; [auto|intros []; reflexivity|destruct e; reflexivity].
  Qed.
End End_.
