(* The text of the functions of sum_handle.c that prepare and feed the digests does what SumHandle.v says. *)
From Coq Require Import Arith NArith ZArith List Lia Bool String.
From Verif Require Import Words Spec Machine Context Hash ToolStrings SumHandle SumEntry CText TextAll TextTools ToolCalls TextSum SumCalls.
From Verif Require Import Vocab MachineFacts HashFacts TextFacts TextContext TextSteps TextHash TextHmac TextDigest TextSizes TextSumSteps TextSumSmall.
Import ListNotations.
Open Scope string_scope.
Open Scope list_scope.
Open Scope N_scope.

Definition digest_name (a : algid) (o : string) : string := String.append "libhmac_" (String.append (alg_name a) (String.append "_context_" o)).

Section Feed.
  Variables (E : env) (O : outside) (sg : bool) (fuel d : nat).
  Notation P := (sum_text sg).
  Notation call := (call_sum E O sg fuel d).
  Notation run := (call_sum E O sg fuel (S d)).

  (* ---------------------------------------------------------- calls to libhmac *)

  Lemma initialize_call : forall a p e s,
    call (digest_name a "initialize") [VRef (v_ctx a p); v_error e] s =
    (r <- context_initialize E a (Some p) e ;; ret (VS R32 (fst r), [Some (v_ctx a (snd r)); None])) s.
  Proof.
    intros a p e s. rewrite outside_call by (destruct a; reflexivity).
    transitivity (digest_call E a DInitialize [VRef (v_ctx a p); v_error e] s); [destruct a; reflexivity|].
    cbn [digest_call]. rewrite ctx_back, given_back. reflexivity.
  Qed.
  Lemma free_call : forall a p e v s, given_of v = Some e ->
    call (digest_name a "free") [VRef (v_ctx a p); v] s =
    (r <- context_free a (Some p) e ;; ret (VS R32 (fst r), [Some (v_ctx a (snd r)); None])) s.
  Proof.
    intros a p e v s H. rewrite outside_call by (destruct a; reflexivity).
    transitivity (digest_call E a DFree [VRef (v_ctx a p); v] s); [destruct a; reflexivity|].
    cbn [digest_call]. rewrite ctx_back, H. reflexivity.
  Qed.
  Lemma update_call : forall a p b n e s,
    call (digest_name a "update") [v_ctx a p; v_bytes b; VU RSz n; v_error e] s =
    (r <- context_update E a p b n e ;; ret (VS R32 r, [None; None; None; None])) s.
  Proof.
    intros a p b n e s. rewrite outside_call by (destruct a; reflexivity).
    transitivity (digest_call E a DUpdate [v_ctx a p; v_bytes b; VU RSz n; v_error e] s); [destruct a; reflexivity|].
    cbn [digest_call]. rewrite ctx_back, given_back, bytes_back, tu_same. reflexivity.
  Qed.

  (* ---------------------------------------------------------- sum_handle_initialize_integrity_hash *)

  Definition initialize_text (a : algid) : stmt :=
    SIf (EBin ONe (EOut (flag_of a)) (EInt 0)) (
      SIf (EBin ONe (ECall (digest_name a "initialize") [(EVar (context_of a)); (EVar "error")]) (EInt 1)) (
        SExpr (ECall "libcerror_error_set" [(EVar "error"); (EName "LIBCERROR_ERROR_DOMAIN_RUNTIME"); (EName "LIBCERROR_RUNTIME_ERROR_INITIALIZE_FAILED")]) ;-
        SGoto) SSkip) SSkip.
  Definition drop_text (a : algid) : stmt :=
    SIf (EBin ONe (EStar (context_of a)) ENull) (
      SExpr (ECall (digest_name a "free") [(EVar (context_of a)); ENull])) SSkip.

  Lemma initialize_block : forall L e, view_of L e -> forall T a h (K : flow -> locals -> M T) s,
    @den E P call fuel T (initialize_text a) (L h) K s =
    (r <- initialize_slot E e a h ;; K (if (fst r =? 1)%Z then FNext else FError) (L (snd r))) s.
  Proof.
    intros L e V T a h K s. unfold initialize_text, initialize_slot. rewrite (flagged _ _ _ _ _ _ _ _ _ _ _ _ (at_flag L e V h a)).
    destruct (calculate (slots h a)) eqn:C; [|reflexivity].
    rewrite (checked_to _ _ _ _ _ (Z * option nat)) with (vs := [VRef (v_ctx a (context (slots h a))); v_error e])
      (m := context_initialize E a (Some (context (slots h a))) e) (g := fst) (outs := fun r => [Some (v_ctx a (snd r)); None])
      (lr := fun r => L (set_slot a (mk_slot (calculate (slots h a)) (snd r) (hash_string (slots h a))) h)).
    - rewrite bind_assoc. apply bind_ext. intros [r p] s1 _. cbn [fst snd]. rewrite C. destruct (r =? 1)%Z; [reflexivity|]. cbn [negb].
      erewrite jumped; [|reflexivity|apply (at_error L e V)]. rewrite bind_assoc. apply bind_ext. reflexivity.
    - eapply evs_cons; [eapply ev_var; [apply (at_context L e V)|reflexivity]|].
      eapply evs_cons; [eapply ev_var; [apply (at_error L e V)|destruct e; reflexivity]|]. apply evs_nil.
    - destruct a; reflexivity.
    - apply initialize_call.
    - intros [r p]. cbn [snd copy_out]. rewrite (to_context L e V). reflexivity.
  Qed.

  Lemma drop_block : forall L e, view_of L e -> forall T a h (K : flow -> locals -> M T) s,
    @den E P call fuel T (drop_text a) (L h) K s = (h1 <- drop_context a h ;; K FNext (L h1)) s.
  Proof.
    intros L e V T a h K s. unfold drop_text, drop_context.
    rewrite (star_given _ _ _ _ _ _ (v_ctx a (context (slots h a))) _ _ _ _ _ _ (at_context L e V h a) (null_ctx _ _)).
    destruct (context (slots h a)) as [p|] eqn:C; [|reflexivity].
    rewrite (called _ _ _ _ _ (Z * option nat)) with (vs := [VRef (v_ctx a (context (slots h a))); VNull])
      (m := context_free a (Some (context (slots h a))) false) (g := fst) (outs := fun r => [Some (v_ctx a (snd r)); None])
      (lr := fun r => L (set_slot a (mk_slot (calculate (slots h a)) (snd r) (hash_string (slots h a))) h)).
    - rewrite C, bind_assoc. reflexivity.
    - eapply evs_cons; [eapply ev_var; [apply (at_context L e V)|reflexivity]|]. eapply evs_cons; [reflexivity|]. apply evs_nil.
    - destruct a; reflexivity.
    - apply free_call. reflexivity.
    - intros [r q]. cbn [snd copy_out]. rewrite (to_context L e V). reflexivity.
  Qed.

  Lemma text_initialize_integrity_hash : forall h e k pos s,
    run "sum_handle_initialize_integrity_hash" (v_handle h :: v_error e :: v_members h k pos) s =
    (x <- initialize_integrity_hash E h e ;; ret (VS R32 (fst x), None :: None :: left_members (snd x) k pos)) s.
  Proof.
    intros [h|] e k pos s.
    - set (L := fun x => frame [("sum_handle", v_handle (Some h)); ("error", v_error e)] x k pos []).
      assert (V : view_of L e) by viewed.
      eapply enter_sum with (l := L h) (l1 := L h); [reflexivity|reflexivity|reflexivity|reflexivity|].
      intros kl ke Hkl Hke.
      opened (chain initialize_text all_algs (SReturn (EInt 1))).
      rewrite (chain_run _ _ _ _ _ _ (initialize_slot E e) L (fun _ => FError)) by (discriminate || (intros; apply initialize_block, V)).
      cbn [initialize_integrity_hash]. unfold sum_handle_initialize_integrity_hash. rewrite !bind_assoc. apply bind_ext. intros [z h1] s1 _. cbn [fst snd].
      destruct (z =? 1)%Z eqn:Z1.
      + apply Z.eqb_eq in Z1. subst z. rewrite den_return_int. subst ke kl. erewrite leave_plain by reflexivity. destruct e; reflexivity.
      + rewrite Hke. change (f_error text_sum_handle_initialize_integrity_hash) with (drop_text SHA1 ;- drop_text MD5 ;- SReturn (EInt (-1))).
        rewrite den_seq, (drop_block L e V), !bind_assoc. apply bind_ext. intros h2 s2 _.
        rewrite den_seq, (drop_block L e V), !bind_assoc. apply bind_ext. intros h3 s3 _.
        rewrite den_return_int. subst ke kl. erewrite leave_plain by reflexivity. destruct e; reflexivity.
    - refused [("sum_handle", VNull); ("error", v_error e)]. destruct e; reflexivity.
  Qed.

  (* ---------------------------------------------------------- sum_handle_update_integrity_hash *)

  Definition update_text (a : algid) : stmt :=
    SIf (EBin ONe (EOut (flag_of a)) (EInt 0)) (
      SIf (EBin ONe (ECall (digest_name a "update") [(EStar (context_of a)); (EVar "buffer"); (EVar "buffer_size"); (EVar "error")]) (EInt 1)) (
        SExpr (ECall "libcerror_error_set" [(EVar "error"); (EName "LIBCERROR_ERROR_DOMAIN_RUNTIME"); (EName "LIBCERROR_RUNTIME_ERROR_SET_FAILED")]) ;-
        SReturn (EInt (-1))) SSkip) SSkip.

  Lemma update_block : forall L e b n, view_of L e ->
    (forall h, lget (L h) "buffer" = Some (VBytes b)) -> (forall h, lget (L h) "buffer_size" = Some (VU RSz n)) ->
    forall T a h (K : flow -> locals -> M T) s,
    @den E P call fuel T (update_text a) (L h) K s =
    (r <- update_slot E b n e a h ;; K (if (fst r =? 1)%Z then FNext else FReturn (VS R32 (fst r))) (L (snd r))) s.
  Proof.
    intros L e b n V HB HN T a h K s. unfold update_text, update_slot. rewrite (flagged _ _ _ _ _ _ _ _ _ _ _ _ (at_flag L e V h a)).
    destruct (calculate (slots h a)) eqn:C; [|reflexivity].
    rewrite (checked _ _ _ _ _ Z) with (vs := [v_ctx a (context (slots h a)); v_bytes (Some b); VU RSz n; v_error e])
      (m := context_update E a (context (slots h a)) (Some b) n e) (g := fun r => r) (outs := fun _ => [None; None; None; None]) (lr := fun _ => L h).
    - rewrite bind_assoc. apply bind_ext. intros r s1 _. destruct (r =? 1)%Z; [reflexivity|]. cbn [negb].
      rewrite den_seq, (erred _ _ _ _ _ _ _ E_RUNTIME_SET_FAILED e) by (reflexivity || apply (at_error L e V)).
      rewrite bind_assoc. apply bind_ext. intros [] s2 _. rewrite den_return_int. reflexivity.
    - eapply evs_cons; [eapply ev_star; apply (at_context L e V)|].
      eapply evs_cons; [eapply ev_var; [apply HB|reflexivity]|].
      eapply evs_cons; [eapply ev_var; [apply HN|reflexivity]|].
      eapply evs_cons; [eapply ev_var; [apply (at_error L e V)|destruct e; reflexivity]|]. apply evs_nil.
    - destruct a; reflexivity.
    - apply update_call.
    - reflexivity.
  Qed.

  Lemma size_limit : forall l s, eval E P call (ECast false RSz ESsizeMax) l s = Done (VU RSz (ssize_max E), l) s.
  Proof. intros l s. cbn [eval]. unfold bind, ret, ssize_max. cbn [fst snd convert to_unsigned option_map bits]. destruct (plat64 E); reflexivity. Qed.

  Lemma update_steps_same : forall l h b n e s,
    match steps (update_slot E b n e) l h s with
    | Done (z, h1) _ => h1 = h /\ (z = 1%Z \/ z = (-1)%Z)
    | Undef => True
    end.
  Proof.
    induction l as [|a l IH]; intros h b n e s; [cbn; auto|]. cbn [steps]. unfold update_slot at 1, bind at 1.
    destruct (calculate (slots h a)); [|cbn [ret fst snd]; unfold ret; cbn [fst snd Z.eqb Pos.eqb]; apply IH].
    unfold bind at 1. destruct (context_update E a (context (slots h a)) (Some b) n e s) as [r s1|]; [|exact I].
    destruct (r =? 1)%Z; [unfold ret at 1; cbn [fst snd Z.eqb Pos.eqb]; apply IH|].
    unfold bind, ret. destruct (error_set e E_RUNTIME_SET_FAILED s1) as [[] s2|]; [|exact I]. cbn. auto.
  Qed.

  Lemma text_update_integrity_hash : forall h b n e k pos s, n < size_mod E ->
    run "sum_handle_update_integrity_hash" (v_handle h :: v_bytes b :: VU RSz n :: v_error e :: v_members h k pos) s =
    (r <- update_integrity_hash E h b n e ;; ret (VS R32 r, None :: None :: None :: None :: left_members h k pos)) s.
  Proof.
    intros [h|] b n e k pos s Hn; [destruct b as [b|]|].
    - set (L := fun x => frame [("sum_handle", v_handle (Some h)); ("buffer", VBytes b); ("buffer_size", VU RSz n); ("error", v_error e)] x k pos []).
      assert (V : view_of L e) by viewed.
      eapply enter_sum with (l := L h) (l1 := L h); [reflexivity|reflexivity|cbn [f_params text_sum_handle_update_integrity_hash v_bytes]; tpar|reflexivity|].
      intros kl ke Hkl Hke. opened_all.
      assert (Hret : forall z x s1, z = 1%Z \/ z = (-1)%Z -> ke (FReturn (VS R32 z)) (L x) s1 = Done (VS R32 z, None :: None :: None :: None :: left_members (Some x) k pos) s1).
      { intros z x s1 [-> | ->]; subst ke kl; erewrite leave_plain by reflexivity; destruct e; reflexivity. }
      cbn [update_integrity_hash]. unfold sum_handle_update_integrity_hash.
      rewrite den_seq, (missing _ _ _ _ _ "buffer" (VBytes b) false) by reflexivity. rewrite den_skip, den_seq.
      rewrite (decided _ _ _ _ _ _ ((n =? 0) || (ssize_max E <? n))).
      2:{ apply ev_or; [eapply ev_bin; [eapply ev_var; reflexivity|reflexivity|reflexivity]|]. intros _.
          eapply ev_bin; [eapply ev_var; reflexivity|apply size_limit|reflexivity]. }
      destruct ((n =? 0) || (ssize_max E <? n)).
      + eapply failed; [reflexivity|reflexivity|]. intros s1. apply (Hret (-1)%Z h). auto.
      + rewrite den_skip. change (@den E P call fuel _ (chain update_text all_algs (SReturn (EInt 1))) (L h) ke s =
          (r <- (x <- steps (update_slot E b n e) all_algs h ;; ret (fst x)) ;; ret (VS R32 r, None :: None :: None :: None :: left_members (Some h) k pos)) s).
        rewrite (chain_run _ _ _ _ _ _ (update_slot E b n e) L (fun z => FReturn (VS R32 z))) by (discriminate || (intros; apply update_block; reflexivity || exact V)).
        rewrite bind_assoc. unfold bind at 1 2. pose proof (update_steps_same all_algs h b n e s) as Q.
        destruct (steps (update_slot E b n e) all_algs h s) as [[z h1] s1|]; [|reflexivity]. cbn [fst snd].
        destruct Q as [-> Q]. unfold bind, ret. destruct Q as [-> | ->]; cbn [Z.eqb Pos.eqb]; [rewrite den_return_int|]; apply Hret; auto.
    - eapply enter_sum with (l := frame [("sum_handle", v_handle (Some h)); ("buffer", VNull); ("buffer_size", VU RSz n); ("error", v_error e)] h k pos []);
        [reflexivity|reflexivity|cbn [f_params text_sum_handle_update_integrity_hash v_bytes]; tpar|reflexivity|].
      intros kl ke Hkl Hke. opened_all. cbn [update_integrity_hash sum_handle_update_integrity_hash].
      rewrite den_seq, (missing _ _ _ _ _ "buffer" VNull true) by reflexivity.
      eapply failed; [reflexivity|reflexivity|]. intros s1. subst ke kl. erewrite leave_plain by reflexivity. destruct e; reflexivity.
    - refused [("sum_handle", VNull); ("buffer", v_bytes b); ("buffer_size", VU RSz n); ("error", v_error e)]. destruct e, b; reflexivity.
  Qed.
End Feed.
