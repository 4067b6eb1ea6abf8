(* The text of sum_handle_process_input does what SumHandle.v says. *)
From Coq Require Import Arith NArith ZArith List Lia Bool String.
From Verif Require Import Words Spec Machine Context Hash ToolStrings SumHandle SumEntry CText TextAll TextTools ToolCalls TextSum SumCalls.
From Verif Require Import Vocab MachineFacts HashFacts TextFacts TextContext TextSteps TextHash TextUpdate TextLoops TextHmac TextDigest TextSizes.
From Verif Require Import TextSumSteps TextSumSmall TextSumHash TextSumInit TextSumEnd.
Import ListNotations.
Open Scope string_scope.
Open Scope list_scope.
Open Scope N_scope.

(* ------------------------------------------------------------------ the abort flag does not matter for the digests *)

Lemma abort_same : forall h b, h_abort h = b -> set_abort b h = h.
Proof. intros [self input sl n b0] b H. cbn in H. subst. reflexivity. Qed.

Lemma update_abort : forall E b n e l x h s,
  steps (update_slot E b n e) l (set_abort x h) s =
  match steps (update_slot E b n e) l h s with Done (z, h1) s1 => Done (z, set_abort x h1) s1 | Undef => Undef end.
Proof.
  intros E b n e. induction l as [|a l IH]; intros x h s; [reflexivity|]. cbn [steps]. unfold update_slot at 1 3. cbn [slots set_abort].
  destruct (calculate (slots h a)); [|apply IH]. unfold bind.
  destruct (context_update E a (context (slots h a)) (Some b) n e s) as [r s1|]; [|reflexivity].
  destruct (r =? 1)%Z; [apply IH|]. unfold ret. destruct (error_set e E_RUNTIME_SET_FAILED s1) as [[] s2|]; reflexivity.
Qed.
Lemma feed_abort : forall E h b n e x s,
  sum_handle_update_integrity_hash E (set_abort x h) b n e s = sum_handle_update_integrity_hash E h b n e s.
Proof.
  intros E h [b|] n e x s; [|reflexivity]. unfold sum_handle_update_integrity_hash. destruct ((n =? 0) || (ssize_max E <? n)); [reflexivity|].
  unfold bind. rewrite update_abort. destruct (steps (update_slot E b n e) all_algs h s) as [[z h1] s1|]; reflexivity.
Qed.

Lemma finalize_abort : forall E e hash l x h s,
  steps (finalize_slot E e hash) l (set_abort x h) s =
  match steps (finalize_slot E e hash) l h s with Done (z, h1) s1 => Done (z, set_abort x h1) s1 | Undef => Undef end.
Proof.
  intros E e hash. induction l as [|a l IH]; intros x h s; [reflexivity|]. cbn [steps]. unfold finalize_slot at 1 3. cbn [slots set_abort].
  destruct (calculate (slots h a)); [|apply IH].
  destruct (hash_string (slots h a)) as [q|].
  2:{ unfold fail, bind, ret. destruct (error_set e E_RUNTIME_VALUE_MISSING s) as [[] s2|]; reflexivity. }
  unfold bind. destruct (context_finalize E a (context (slots h a)) (Some (hash a, 0)) (a_hs (alg_of a)) e s) as [r s1|]; [|reflexivity].
  match goal with |- match match ?c s1 with _ => _ end with _ => _ end = _ => destruct (c s1) as [r2 s2|]; [|reflexivity] end.
  unfold ret. cbn [fst snd]. destruct (r2 =? 1)%Z; [apply IH|reflexivity].
Qed.
Lemma end_abort : forall E h e x s,
  sum_handle_finalize_integrity_hash E (set_abort x h) e s = sum_handle_finalize_integrity_hash E h e s.
Proof.
  intros E h e x s. unfold sum_handle_finalize_integrity_hash, with_hashes.
  do 5 (apply bind_ext; intros ? ? _).
  match goal with |- bind ?c _ ?t = bind ?d _ ?t => assert (Q : c t = d t) end.
  { unfold bind. rewrite finalize_abort. match goal with |- match match ?c with _ => _ end with _ => _ end = _ => destruct c as [[? ?] ?|]; reflexivity end. }
  unfold bind at 1. rewrite Q. reflexivity.
Qed.

(* ------------------------------------------------------------------ preparing the digests leaves the rest alone *)

Definition kept (h h1 : handle) : Prop :=
  h_self h1 = h_self h /\ process_buffer_size h1 = process_buffer_size h /\ h_abort h1 = h_abort h.
Lemma prepare_steps_keep : forall E e l h s,
  match steps (initialize_slot E e) l h s with Done (z, h1) _ => kept h h1 | Undef => True end.
Proof.
  intros E e. induction l as [|a l IH]; intros h s; [repeat split|]. cbn [steps]. unfold initialize_slot at 1.
  destruct (calculate (slots h a)) eqn:C; [|apply IH]. rewrite bind_assoc. unfold bind at 1.
  destruct (context_initialize E a (Some (context (slots h a))) e s) as [[r p] s1|]; [|exact I]. cbn [fst snd].
  destruct (r =? 1)%Z.
  - unfold bind at 1, ret at 1. cbn [fst snd Z.eqb Pos.eqb].
    match goal with |- match steps _ _ ?h2 _ with _ => _ end => specialize (IH h2 s1); destruct (steps (initialize_slot E e) l h2 s1) as [[z h1] s2|]; [exact IH|exact I] end.
  - unfold bind, ret. destruct (error_set e E_RUNTIME_INITIALIZE_FAILED s1) as [[] s2|]; [repeat split|exact I].
Qed.
Lemma prepare_keeps : forall E h e s,
  match sum_handle_initialize_integrity_hash E h e s with Done (z, h1) _ => z = 1%Z -> kept h h1 | Undef => True end.
Proof.
  intros E h e s. unfold sum_handle_initialize_integrity_hash, bind at 1. pose proof (prepare_steps_keep E e all_algs h s) as Q.
  destruct (steps (initialize_slot E e) all_algs h s) as [[z h1] s1|]; [|exact I]. cbn [fst snd].
  destruct (z =? 1)%Z; [intros _; exact Q|]. unfold bind at 1. destruct (drop_context SHA1 h1 s1) as [h2 s2|]; [|exact I].
  unfold bind. destruct (drop_context MD5 h2 s2) as [h3 s3|]; [|exact I]. cbn. discriminate.
Qed.

Section Process.
  Variables (E : env) (O : outside) (sg : bool) (fuel d : nat).
  Notation P := (sum_text sg).
  Notation call := (call_sum E O sg fuel (S d)).
  Notation run := (call_sum E O sg fuel (S (S d))).

  Lemma ev_out_u : forall x l s r n, lget l x = Some (VRef (VU r n)) -> eval E P call (EOut x) l s = Done (VU r n, l) s.
  Proof. intros. cbn [eval]. rewrite H. reflexivity. Qed.
  Lemma ev_out_s : forall x l s r n, lget l x = Some (VRef (VS r n)) -> eval E P call (EOut x) l s = Done (VS r n, l) s.
  Proof. intros. cbn [eval]. rewrite H. reflexivity. Qed.

  Lemma same_args : forall f def a1 a2 s, find_fun (p_functions P) f = Some def ->
    bind_params E (f_params def) a1 = bind_params E (f_params def) a2 -> call f a1 s = call f a2 s.
  Proof. intros f def a1 a2 s H1 H2. rewrite !call_sum_eq, H1, !run_fun_eq, H2. reflexivity. Qed.

  Lemma ssize_small : ssize_max E < size_mod E /\ size_mod E <= 2 ^ 64.
  Proof. unfold ssize_max, size_mod. destruct (plat64 E); lia. Qed.
  Lemma count_u : forall r z, (0 <= z)%Z -> Z.to_N z < 2 ^ bits E r -> to_unsigned E r (VS RSz z) = Some (Z.to_N z).
  Proof. intros r z H1 H2. rewrite <- (Z2N.id z H1) at 1. now apply tu_count. Qed.

  Lemma read_bound : forall k pos h bp n e s r s1, sum_handle_read_buffer E (o_input O) k pos h bp n e s = Done r s1 -> (r <= Z.of_N n)%Z.
  Proof.
    intros k pos h bp n e s r s1 H.
    assert (F : forall c s, fail e c s = Done r s1 -> (r <= Z.of_N n)%Z).
    { intros c s0 H0. unfold fail, bind in H0. destruct (error_set e c s0) as [[] s2|]; [|discriminate]. injection H0 as <- _. lia. }
    unfold sum_handle_read_buffer in H. destruct h as [h|]; [|eapply F, H]. destruct bp as [bp|]; [|eapply F, H].
    destruct (ssize_max E <? n); [eapply F, H|]. destruct (in_read (o_input O) k) as [most|]; [|eapply F, H].
    unfold bind in H. match type of H with match ?c with _ => _ end = _ => destruct c as [[] s2|]; [|discriminate] end.
    injection H as <- _. pose proof (firstn_le_length (N.to_nat (N.min most n)) (skipn (N.to_nat pos) (in_data (o_input O)))). lia.
  Qed.

  Notation all_members := (map EVar member_names).
  Definition loop_text : stmt :=
    SAssign (EVar "read_size") (EOut "sum_handle->process_buffer_size") ;-
    SIf (EBin OLt (EBin OSub (EVar "media_size") (EVar "process_count")) (EVar "read_size")) (
      SAssign (EVar "read_size") (ECast false RSz (EBin OSub (EVar "media_size") (EVar "process_count")))) SSkip ;-
    SAssign (EVar "read_count") (ECall "sum_handle_read_buffer" (EVar "sum_handle" :: EVar "buffer" :: EVar "read_size" :: EVar "error" :: all_members)) ;-
    SIf (EBin OLt (EVar "read_count") (EInt 0)) (
      SExpr (ECall "libcerror_error_set" [(EVar "error"); (EName "LIBCERROR_ERROR_DOMAIN_IO"); (EName "LIBCERROR_IO_ERROR_READ_FAILED")]) ;-
      SGoto) SSkip ;-
    SIf (EBin OEq (EVar "read_count") (EInt 0)) (
      SExpr (ECall "libcerror_error_set" [(EVar "error"); (EName "LIBCERROR_ERROR_DOMAIN_IO"); (EName "LIBCERROR_IO_ERROR_READ_FAILED")]) ;-
      SGoto) SSkip ;-
    SIf (EBin ONe (ECall "sum_handle_update_integrity_hash" (EVar "sum_handle" :: EVar "buffer" :: EVar "read_count" :: EVar "error" :: all_members)) (EInt 1)) (
      SExpr (ECall "libcerror_error_set" [(EVar "error"); (EName "LIBCERROR_ERROR_DOMAIN_RUNTIME"); (EName "LIBCERROR_RUNTIME_ERROR_GENERIC")]) ;-
      SGoto) SSkip ;-
    SOp OAdd (EVar "process_count") (EVar "read_count") ;-
    SIf (EBin ONe (EOut "sum_handle->abort") (EInt 0)) (
      SBreak) SSkip.
  Definition process_text : stmt :=
    SIf (ELogOr (EBin OEq (EOut "sum_handle->process_buffer_size") (EInt 0)) (EBin OGt (EOut "sum_handle->process_buffer_size") (ECast false RSz ESsizeMax))) (
      SExpr (ECall "libcerror_error_set" [(EVar "error"); (EName "LIBCERROR_ERROR_DOMAIN_ARGUMENTS"); (EName "LIBCERROR_ARGUMENT_ERROR_VALUE_OUT_OF_BOUNDS")]) ;-
      SReturn (EInt (-1))) SSkip ;-
    SIf (EBin ONe (ECall "libcfile_file_get_size" [(EStar "sum_handle->input_handle"); (ERef "media_size"); (EVar "error")]) (EInt 1)) (
      SExpr (ECall "libcerror_error_set" [(EVar "error"); (EName "LIBCERROR_ERROR_DOMAIN_RUNTIME"); (EName "LIBCERROR_RUNTIME_ERROR_GET_FAILED")]) ;-
      SGoto) SSkip ;-
    SAssign (EVar "buffer") (ECall "memory_allocate" [(EBin OMul (ESize 1) (EOut "sum_handle->process_buffer_size"))]) ;-
    SIf (EBin OEq (EVar "buffer") ENull) (
      SExpr (ECall "libcerror_error_set" [(EVar "error"); (EName "LIBCERROR_ERROR_DOMAIN_MEMORY"); (EName "LIBCERROR_MEMORY_ERROR_INSUFFICIENT")]) ;-
      SGoto) SSkip ;-
    SIf (EBin ONe (ECall "sum_handle_initialize_integrity_hash" (EVar "sum_handle" :: EVar "error" :: all_members)) (EInt 1)) (
      SExpr (ECall "libcerror_error_set" [(EVar "error"); (EName "LIBCERROR_ERROR_DOMAIN_RUNTIME"); (EName "LIBCERROR_RUNTIME_ERROR_INITIALIZE_FAILED")]) ;-
      SGoto) SSkip ;-
    SWhile (EBin OLt (EVar "process_count") (EVar "media_size")) loop_text ;-
    SExpr (ECall "memory_free" [(EVar "buffer")]) ;-
    SAssign (EVar "buffer") ENull ;-
    SIf (EBin ONe (ECall "sum_handle_finalize_integrity_hash" (EVar "sum_handle" :: EVar "error" :: all_members)) (EInt 1)) (
      SExpr (ECall "libcerror_error_set" [(EVar "error"); (EName "LIBCERROR_ERROR_DOMAIN_RUNTIME"); (EName "LIBCERROR_RUNTIME_ERROR_FINALIZE_FAILED")]) ;-
      SGoto) SSkip ;-
    SReturn (EInt 1).

  Lemma process_body : f_body text_sum_handle_process_input = (no_handle_text ;- process_text).
  Proof. reflexivity. Qed.

  (* the frame of the function *)
  Definition pl (self : nat) (e : bool) (h : handle) (k : nat) (pos : N) (b : option nat) (media count rs : N) (rc : Z) : locals :=
    frame [("sum_handle", VBytes (self, 0)); ("error", v_error e)] h k pos
      [("buffer", v_mem b); ("media_size", VU R64 media); ("process_count", VU R64 count); ("read_size", VU RSz rs); ("read_count", VS RSz rc)].

  Lemma sub64 : forall x y, y <= x -> x < 2 ^ 64 -> usub (2 ^ bits E R64) x y = x - y.
  Proof.
    intros x y H1 H2. change (2 ^ bits E R64) with (2 ^ 64). unfold usub.
    replace (x + (2 ^ 64 - y)) with ((x - y) + 1 * 2 ^ 64) by lia. rewrite N.mod_add by discriminate. apply N.mod_small. lia.
  Qed.

  (* one turn *)
  Lemma loop_turn : forall T h e b media count k rs rc (K : flow -> locals -> M T) (G : handle -> M T) s,
    process_buffer_size h <= ssize_max E -> 0 < process_buffer_size h -> count < media -> media < 2 ^ 64 ->
    (forall h1 pos rs1 rc1 s1, K FError (pl (h_self h) e h1 (S k) pos (Some b) media count rs1 rc1) s1 = G h1 s1) ->
    @den E P call fuel T loop_text (pl (h_self h) e h k count (Some b) media count rs rc) K s =
    (read_count <- sum_handle_read_buffer E (o_input O) k count (Some h) (Some (b, 0))
       (if media - count <? process_buffer_size h then (media - count) mod size_mod E else process_buffer_size h) e ;;
     if (read_count <? 0)%Z then error_set e E_IO_READ_FAILED ;;; G (after_read O h k)
     else if (read_count =? 0)%Z then error_set e E_IO_READ_FAILED ;;; G (after_read O h k)
     else
       r <- sum_handle_update_integrity_hash E h (Some (b, 0)) (Z.to_N read_count) e ;;
       if (r =? 1)%Z then
         K (if h_abort h || arrived (o_signal O) (o_looks O + k) then FBreak else FNext)
           (pl (h_self h) e (after_read O h k) (S k) (count + Z.to_N read_count) (Some b) media ((count + Z.to_N read_count) mod 2 ^ 64)
              (if media - count <? process_buffer_size h then (media - count) mod size_mod E else process_buffer_size h) read_count)
       else error_set e E_RUNTIME_GENERIC ;;; G (after_read O h k)) s.
  Proof.
    intros T h e b media count k rs rc K G s H1 H2 H3 H4 HG. set (n := process_buffer_size h) in *.
    set (sz := if media - count <? n then (media - count) mod size_mod E else n).
    assert (Hn : n < size_mod E) by (pose proof ssize_small; lia).
    assert (Hsz : sz <= ssize_max E).
    { unfold sz. destruct (N.ltb_spec (media - count) n); [|exact H1]. rewrite N.mod_small; lia. }
    unfold loop_text. rewrite den_seq, den_assign. erewrite ev_out_u; [|reflexivity]. cbn [fst snd].
    rewrite (as_u _ _ _ "read_size" _ RSz rs _ n (pl (h_self h) e h k count (Some b) media count n rc)); [|reflexivity|apply tu_same|reflexivity].
    rewrite den_seq.
    assert (Esub : forall s1, eval E P call (EBin OSub (EVar "media_size") (EVar "process_count")) (pl (h_self h) e h k count (Some b) media count n rc) s1 =
      Done (VU R64 (media - count), pl (h_self h) e h k count (Some b) media count n rc) s1).
    { intros s1. eapply ev_bin; [eapply ev_var; reflexivity|eapply ev_var; reflexivity|].
      apply bin_uu; [reflexivity|discriminate|discriminate|]. cbn [arith]. rewrite sub64 by lia. reflexivity. }
    rewrite (decided _ _ _ _ _ _ (media - count <? n)); [|eapply ev_bin; [apply Esub|eapply ev_var; reflexivity|reflexivity]].
    transitivity (@den E P call fuel T (
      SAssign (EVar "read_count") (ECall "sum_handle_read_buffer" (EVar "sum_handle" :: EVar "buffer" :: EVar "read_size" :: EVar "error" :: all_members)) ;-
      SIf (EBin OLt (EVar "read_count") (EInt 0)) (
        SExpr (ECall "libcerror_error_set" [(EVar "error"); (EName "LIBCERROR_ERROR_DOMAIN_IO"); (EName "LIBCERROR_IO_ERROR_READ_FAILED")]) ;-
        SGoto) SSkip ;-
      SIf (EBin OEq (EVar "read_count") (EInt 0)) (
        SExpr (ECall "libcerror_error_set" [(EVar "error"); (EName "LIBCERROR_ERROR_DOMAIN_IO"); (EName "LIBCERROR_IO_ERROR_READ_FAILED")]) ;-
        SGoto) SSkip ;-
      SIf (EBin ONe (ECall "sum_handle_update_integrity_hash" (EVar "sum_handle" :: EVar "buffer" :: EVar "read_count" :: EVar "error" :: all_members)) (EInt 1)) (
        SExpr (ECall "libcerror_error_set" [(EVar "error"); (EName "LIBCERROR_ERROR_DOMAIN_RUNTIME"); (EName "LIBCERROR_RUNTIME_ERROR_GENERIC")]) ;-
        SGoto) SSkip ;-
      SOp OAdd (EVar "process_count") (EVar "read_count") ;-
      SIf (EBin ONe (EOut "sum_handle->abort") (EInt 0)) (
        SBreak) SSkip) (pl (h_self h) e h k count (Some b) media count sz rc) K s).
    { unfold sz. destruct (media - count <? n); [|reflexivity].
      rewrite den_assign. erewrite ev_cast; [|apply Esub|apply conv_u; cbn [to_unsigned rank_eqb]; rewrite bits_size_mod; reflexivity]. cbn [fst snd].
      rewrite (as_u _ _ _ "read_size" _ RSz n _ ((media - count) mod size_mod E) (pl (h_self h) e h k count (Some b) media count ((media - count) mod size_mod E) rc));
        [reflexivity|reflexivity|apply tu_same|reflexivity]. }
    rewrite den_seq, (assigned _ _ _ _ _ Z) with (m := sum_handle_read_buffer E (o_input O) k count (Some h) (Some (b, 0)) sz e) (g := VS RSz)
      (outs := fun r => None :: None :: None :: None :: left_members (Some (after_read O h k)) (S k) (count + Z.to_N (Z.max r 0)))
      (l1 := fun r => pl (h_self h) e (after_read O h k) (S k) (count + Z.to_N (Z.max r 0)) (Some b) media count sz rc)
      (lr := fun r => pl (h_self h) e (after_read O h k) (S k) (count + Z.to_N (Z.max r 0)) (Some b) media count sz r)
      (vs := v_handle (Some h) :: v_bytes (Some (b, 0)) :: VU RSz sz :: v_error e :: v_members (Some h) k count).
    2:{ cbn [map member_names flat_map all_algs app]. sev. }
    2:{ reflexivity. }
    2:{ rewrite text_read_buffer by (pose proof ssize_small; lia). cbn [is_read]. rewrite (proj2 (N.leb_le _ _) Hsz). reflexivity. }
    2:{ intros r. reflexivity. }
    2:{ intros. eapply as_s; [reflexivity|apply ts_same|reflexivity]. }
    unfold bind at 1 2. destruct (sum_handle_read_buffer E (o_input O) k count (Some h) (Some (b, 0)) sz e s) as [r s1|] eqn:HR; [|reflexivity].
    assert (Hr : (r <= Z.of_N sz)%Z).
    { eapply read_bound, HR. }
    rewrite den_seq, (decided _ _ _ _ _ _ (r <? 0)%Z).
    2:{ eapply ev_bin; [eapply ev_var; reflexivity|reflexivity|apply bin_ss; [reflexivity|reflexivity|discriminate|discriminate|reflexivity]]. }
    destruct (Z.ltb_spec r 0) as [N|N].
    { erewrite jumped; [|reflexivity|reflexivity]. apply bind_ext. intros [] s2 _. apply HG. }
    rewrite den_skip, den_seq, (decided _ _ _ _ _ _ (r =? 0)%Z).
    2:{ eapply ev_bin; [eapply ev_var; reflexivity|reflexivity|apply bin_ss; [reflexivity|reflexivity|discriminate|discriminate|reflexivity]]. }
    destruct (Z.eqb_spec r 0) as [N0|N0].
    { erewrite jumped; [|reflexivity|reflexivity]. apply bind_ext. intros [] s2 _. apply HG. }
    rewrite den_skip, den_seq. rewrite Z.max_l by exact N.
    assert (Hrs : Z.to_N r < size_mod E) by (pose proof ssize_small; lia).
    rewrite (checked _ _ _ _ _ Z) with (m := sum_handle_update_integrity_hash E h (Some (b, 0)) (Z.to_N r) e) (g := fun r => r)
      (outs := fun _ => None :: None :: None :: None :: left_members (Some (after_read O h k)) (S k) (count + Z.to_N r))
      (lr := fun _ => pl (h_self h) e (after_read O h k) (S k) (count + Z.to_N r) (Some b) media count sz r)
      (vs := v_handle (Some h) :: v_bytes (Some (b, 0)) :: VS RSz r :: v_error e :: v_members (Some (after_read O h k)) (S k) (count + Z.to_N r)).
    2:{ cbn [map member_names flat_map all_algs app]. sev. }
    2:{ reflexivity. }
    2:{ rewrite (same_args _ text_sum_handle_update_integrity_hash _
          (v_handle (Some (after_read O h k)) :: v_bytes (Some (b, 0)) :: VU RSz (Z.to_N r) :: v_error e :: v_members (Some (after_read O h k)) (S k) (count + Z.to_N r)));
          [|reflexivity|].
        - rewrite text_update_integrity_hash by exact Hrs. cbn [update_integrity_hash]. unfold bind, after_read. rewrite feed_abort. reflexivity.
        - cbn [f_params text_sum_handle_update_integrity_hash bind_params]. rewrite (conv_u E RSz (VS RSz r) (Z.to_N r)) by (apply count_u; [exact N|rewrite bits_size_mod; exact Hrs]). reflexivity. }
    2:{ reflexivity. }
    apply bind_ext. intros u s2 _. destruct (u =? 1)%Z; cbn [negb].
    2:{ erewrite jumped; [|reflexivity|reflexivity]. apply bind_ext. intros [] s3 _. apply HG. }
    rewrite den_skip, den_seq, den_op. erewrite ev_var; [|reflexivity|reflexivity]. cbn [fst snd]. erewrite ev_var; [|reflexivity|reflexivity]. cbn [fst snd].
    rewrite (bin_us E OAdd R64 count RSz r (Z.to_N r) (VU R64 ((count + Z.to_N r) mod 2 ^ 64))); [|reflexivity|reflexivity|discriminate|discriminate| |reflexivity].
    2:{ apply count_u; [exact N|]. change (bits E R64) with 64. pose proof ssize_small. lia. }
    erewrite as_u; [|reflexivity|apply tu_same|reflexivity].
    assert (Ea : eval E P call (EBin ONe (EOut "sum_handle->abort") (EInt 0)) (pl (h_self h) e (after_read O h k) (S k) (count + Z.to_N r) (Some b) media ((count + Z.to_N r) mod 2 ^ 64) sz r) s2 =
       Done (truth (h_abort h || arrived (o_signal O) (o_looks O + k)), pl (h_self h) e (after_read O h k) (S k) (count + Z.to_N r) (Some b) media ((count + Z.to_N r) mod 2 ^ 64) sz r) s2).
    { eapply ev_bin; [eapply ev_out_s; reflexivity|reflexivity|]. cbn [after_read set_abort h_abort]. destruct (h_abort h || arrived (o_signal O) (o_looks O + k)); reflexivity. }
    etransitivity; [exact (decided _ _ _ _ _ _ _ _ _ _ _ _ Ea)|].
    destruct (h_abort h || arrived (o_signal O) (o_looks O + k)); reflexivity.
  Qed.

  Definition aborted (h : handle) (k : nat) : handle :=
    set_abort (h_abort h || Nat.ltb 0 k && arrived (o_signal O) (o_looks O + k - 1)) h.
  Lemma aborted_after : forall h k, aborted h (S k) = after_read O h k.
  Proof. intros h k. unfold aborted, after_read. replace (o_looks O + S k - 1)%nat with (o_looks O + k)%nat by lia. reflexivity. Qed.

  Notation while_text := (EBin OLt (EVar "process_count") (EVar "media_size")).

  Lemma loop_run : forall T h e b media (K : flow -> locals -> M T) (G1 G2 : handle -> nat -> M T),
    process_buffer_size h <= ssize_max E -> 0 < process_buffer_size h -> media < 2 ^ 64 ->
    (forall h1 k1 pos count rs rc s, h_self h1 = h_self h -> K FNext (pl (h_self h) e h1 k1 pos (Some b) media count rs rc) s = G1 h1 k1 s) ->
    (forall h1 k1 pos count rs rc s, K FError (pl (h_self h) e h1 k1 pos (Some b) media count rs rc) s = G2 h1 k1 s) ->
    forall f1 f2 count k rs rc s, (N.to_nat (media - count) <= f1)%nat -> (N.to_nat (media - count) <= f2)%nat -> count <= media ->
    aborted h k = h ->
    @dloop E P call fuel T f2 while_text loop_text (pl (h_self h) e h k count (Some b) media count rs rc) K s =
    (x <- process_loop E f1 (o_input O) (o_signal O) (o_looks O) h (b, 0) media count k e ;;
     (if (fst x =? 1)%Z then G1 else G2) (aborted h (snd x)) (snd x)) s.
  Proof.
    intros T h e b media K G1 G2 H1 H2 H3 HG1 HG2. induction f1 as [|f1 IH]; intros f2 count k rs rc s F1 F2 Hc Ha.
    - assert (count = media) by lia. subst count. cbn [process_loop]. rewrite N.ltb_irrefl.
      rewrite dloop_end; [|eapply ev_bin; [eapply ev_var; reflexivity|eapply ev_var; reflexivity|apply bin_uu; [reflexivity|discriminate|discriminate|cbn [arith]; now rewrite N.ltb_irrefl]]].
      rewrite HG1 by reflexivity. rewrite bind_ret. cbn [fst snd Z.eqb Pos.eqb]. now rewrite Ha.
    - cbn [process_loop]. destruct (N.ltb_spec count media) as [C|C].
      2:{ rewrite dloop_end; [|eapply ev_bin; [eapply ev_var; reflexivity|eapply ev_var; reflexivity|apply bin_uu; [reflexivity|discriminate|discriminate|cbn [arith]; now rewrite (proj2 (N.ltb_ge _ _) C)]]].
          rewrite HG1, bind_ret by reflexivity. cbn [fst snd Z.eqb Pos.eqb]. now rewrite Ha. }
      destruct f2 as [|f2]; [lia|].
      rewrite dloop_step; [|eapply ev_bin; [eapply ev_var; reflexivity|eapply ev_var; reflexivity|apply bin_uu; [reflexivity|discriminate|discriminate|cbn [arith]; now rewrite (proj2 (N.ltb_lt _ _) C)]]].
      rewrite (loop_turn _ _ _ _ _ _ _ _ _ _ (fun h1 => G2 h1 (S k))) by (assumption || (intros; apply HG2)).
      rewrite bind_assoc. apply bind_ext. intros r s1 HR.
      destruct (Z.ltb_spec r 0) as [N|N].
      { unfold fail. rewrite !bind_assoc. apply bind_ext. intros [] s2 _. rewrite !bind_ret. cbn [fst snd]. rewrite aborted_after. reflexivity. }
      destruct (Z.eqb_spec r 0) as [N0|N0].
      { unfold fail. rewrite !bind_assoc. apply bind_ext. intros [] s2 _. rewrite !bind_ret. cbn [fst snd]. rewrite aborted_after. reflexivity. }
      rewrite bind_assoc. apply bind_ext. intros u s2 _. destruct (u =? 1)%Z.
      2:{ unfold fail. rewrite !bind_assoc. apply bind_ext. intros [] s3 _. rewrite !bind_ret. cbn [fst snd]. rewrite aborted_after. reflexivity. }
      destruct (h_abort h || arrived (o_signal O) (o_looks O + k)) eqn:A.
      + rewrite HG1, bind_ret by reflexivity. cbn [fst snd Z.eqb Pos.eqb]. rewrite aborted_after. reflexivity.
      + assert (Q : after_read O h k = h).
        { unfold after_read. rewrite A. apply abort_same. now apply orb_false_elim in A. }
        rewrite Q. apply read_bound in HR.
        assert (Hr : Z.to_N r <= media - count).
        { destruct (N.ltb_spec (media - count) (process_buffer_size h)) as [B|B]; [|lia].
          pose proof (N.mod_le (media - count) (size_mod E)). pose proof ssize_small. lia. }
        rewrite N.mod_small by lia.
        apply IH; [lia|lia|lia|]. now rewrite aborted_after.
  Qed.

  Lemma text_process_input : forall h e s,
    (forall n, in_size (o_input O) = Some n -> n < 2 ^ 64 /\ (N.to_nat n <= fuel)%nat) ->
    (x <- run "sum_handle_process_input" (v_handle h :: v_error e :: v_members h 0 0) ;; ret (fst x, but_offset (snd x))) s =
    (x <- sum_handle_process_input E (o_input O) (o_signal O) (o_looks O) h e ;;
     ret (VS R32 (fst (fst x)), but_offset (None :: None :: left_members (snd (fst x)) (snd x) 0))) s.
  Proof.
    intros [h|] e s HF.
    2:{ unfold bind at 1. replace (run "sum_handle_process_input" (v_handle None :: v_error e :: v_members None 0 0) s)
          with ((r <- fail e E_ARGUMENT_INVALID_VALUE ;; ret (VS R32 r, repeat (@None val) 22)) s).
        - cbn [sum_handle_process_input]. unfold fail, bind, ret. destruct (error_set e E_ARGUMENT_INVALID_VALUE s) as [[] s1|]; reflexivity.
        - symmetry. refused [("sum_handle", VNull); ("error", v_error e)]. destruct e; reflexivity. }
    set (L0 := pl (h_self h) e h 0 0 None 0 0 0 0%Z).
    set (R := fun z h1 k1 => ret (VS R32 z, but_offset (None :: None :: left_members (Some h1) k1 0)) : M (val * list (option val))).
    transitivity ((x <- (fun s => @den E P call fuel _ (f_body text_sum_handle_process_input) L0
            (fun fl l => match fl with
                         | FReturn v => leave E text_sum_handle_process_input fl l
                         | FBreak => undef
                         | _ => @den E P call fuel _ (f_error text_sum_handle_process_input) l (leave E text_sum_handle_process_input)
                         end) s) ;; ret (fst x, but_offset (snd x))) s).
    { unfold bind. erewrite enter_sum with (l := frame [("sum_handle", VBytes (h_self h, 0)); ("error", v_error e)] h 0 0 []) (l1 := L0);
        [reflexivity|reflexivity|reflexivity|reflexivity|tloc|]. intros kl ke Hkl Hke. subst ke kl. reflexivity. }
    rewrite den_bind. set (ke := fun fl l => _).
    assert (Hret : forall z h1 k1 pos b media count rs rc s1, z = 1%Z \/ z = (-1)%Z ->
      ke (FReturn (VS R32 z)) (pl (h_self h) e h1 k1 pos b media count rs rc) s1 = R z h1 k1 s1).
    { intros z h1 k1 pos b media count rs rc s1 Hz. unfold ke, bind.
      erewrite leave_plain; [|reflexivity|destruct Hz as [Q|Q]; rewrite Q; reflexivity]. destruct Hz as [Q|Q]; rewrite Q; destruct e; reflexivity. }
    assert (Herr : forall h1 k1 pos b media count rs rc s1,
      ke FError (pl (h_self h) e h1 k1 pos b media count rs rc) s1 = (match b with Some b => mfree b | None => ret tt end ;;; R (-1)%Z h1 k1) s1).
    { intros h1 k1 pos b media count rs rc s1. unfold ke. rewrite den_bind. set (K2 := fun fl l => _).
      change (f_error text_sum_handle_process_input) with (SIf (EBin ONe (EVar "buffer") ENull) (SExpr (ECall "memory_free" [(EVar "buffer")])) SSkip ;- SReturn (EInt (-1))).
      rewrite den_seq, (given _ _ _ _ _ "buffer" (v_mem b) (match b with Some _ => false | None => true end)) by (reflexivity || (destruct b; reflexivity)).
      destruct b as [b|].
      - rewrite (freed _ _ _ _ _ _ _ b); [|sev]. apply bind_ext. intros [] s2 _. rewrite den_return_int. apply (Hret (-1)%Z h1 k1 pos (Some b)). auto.
      - rewrite den_skip, den_return_int, bind_ret. apply (Hret (-1)%Z h1 k1 pos None). auto. }
    clearbody ke. rewrite process_body, with_handle with (p := (h_self h, 0)) by reflexivity.
    cbn [sum_handle_process_input]. unfold process_text.
    rewrite den_seq, (decided _ _ _ _ _ _ ((process_buffer_size h =? 0) || (ssize_max E <? process_buffer_size h))).
    2:{ apply ev_or; [eapply ev_bin; [eapply ev_out_u; reflexivity|reflexivity|reflexivity]|]. intros _.
        eapply ev_bin; [eapply ev_out_u; reflexivity|apply size_limit|reflexivity]. }
    destruct ((process_buffer_size h =? 0) || (ssize_max E <? process_buffer_size h)) eqn:B.
    { rewrite bind_assoc. eapply failed; [reflexivity|reflexivity|]. intros s1. unfold L0. rewrite Hret by auto. reflexivity. }
    apply orb_false_elim in B. destruct B as [B1 B2]. apply N.eqb_neq in B1. apply N.ltb_ge in B2.
    rewrite den_skip, den_seq.
    rewrite (checked _ _ _ _ _ unit) with (m := ret tt) (g := fun _ => (match in_size (o_input O) with Some _ => 1 | None => -1 end)%Z)
      (outs := fun _ => [None; Some (VU R64 (match in_size (o_input O) with Some n => n | None => 0 end)); None])
      (lr := fun _ => pl (h_self h) e h 0 0 None (match in_size (o_input O) with Some n => n | None => 0 end) 0 0 0%Z)
      (vs := [VBytes (h_input h, 0); VRef (VU R64 0); v_error e]).
    2:{ sev. }
    2:{ reflexivity. }
    2:{ rewrite outside_call by reflexivity. unfold sum_call. cbn [digest_function find_assoc String.eqb Ascii.eqb Bool.eqb].
        destruct (in_size (o_input O)); reflexivity. }
    2:{ intros []. reflexivity. }
    rewrite bind_ret. destruct (in_size (o_input O)) as [media|]; cbn [Z.eqb Pos.eqb negb].
    2:{ erewrite jumped; [|reflexivity|reflexivity]. unfold fail. rewrite !bind_assoc. apply bind_ext. intros [] s1 _. rewrite Herr, !bind_ret. reflexivity. }
    destruct (HF media eq_refl) as [HM HU]. clear HF.
    rewrite den_skip, den_seq.
    rewrite (allotted _ _ _ _ _ "buffer" _ _ (process_buffer_size h) None (fun q => pl (h_self h) e h 0 0 q media 0 0 0%Z)).
    2:{ eapply evs_cons; [|apply evs_nil]. eapply ev_bin; [reflexivity|eapply ev_out_u; reflexivity|].
        apply bin_uu; [reflexivity|discriminate|discriminate|]. cbn [arith]. rewrite N.mul_1_l, bits_size_mod, N.mod_small; [reflexivity|]. pose proof ssize_small. lia. }
    2:{ reflexivity. }
    2:{ reflexivity. }
    rewrite bind_assoc. apply bind_ext. intros b s1 _.
    rewrite den_seq, (missing _ _ _ _ _ "buffer" (v_mem b) (match b with Some _ => false | None => true end)) by (reflexivity || (destruct b; reflexivity)).
    destruct b as [b|].
    2:{ erewrite jumped; [|reflexivity|reflexivity]. unfold fail. rewrite !bind_assoc. apply bind_ext. intros [] s2 _. rewrite Herr, !bind_ret. reflexivity. }
    rewrite den_skip, den_seq.
    rewrite (checked _ _ _ _ _ (Z * handle)) with (m := sum_handle_initialize_integrity_hash E h e) (g := fst)
      (outs := fun x => None :: None :: left_members (Some (snd x)) 0 0)
      (lr := fun x => pl (h_self h) e (snd x) 0 0 (Some b) media 0 0 0%Z)
      (vs := v_handle (Some h) :: v_error e :: v_members (Some h) 0 0).
    2:{ cbn [map member_names flat_map all_algs app]. sev. }
    2:{ reflexivity. }
    2:{ rewrite text_initialize_integrity_hash. cbn [initialize_integrity_hash]. rewrite bind_assoc. reflexivity. }
    2:{ reflexivity. }
    rewrite bind_assoc. unfold bind at 1 2. pose proof (prepare_keeps E h e s1) as Q.
    destruct (sum_handle_initialize_integrity_hash E h e s1) as [[z h1] s2|]; [|reflexivity]. cbn [fst snd].
    destruct (Z.eqb_spec z 1) as [Z1|Z1]; cbn [negb].
    2:{ erewrite jumped; [|reflexivity|reflexivity]. rewrite !bind_assoc. apply bind_ext. intros [] s3 _. rewrite Herr, !bind_assoc. apply bind_ext. intros [] s4 _. rewrite !bind_ret. reflexivity. }
    destruct (Q Z1) as (Q1 & Q2 & Q3). clear Q. rewrite <- Q1 in *. rewrite <- Q2 in B1, B2.
    rewrite den_skip, den_seq, den_while.
    erewrite (loop_run _ h1 e b media _
      (fun h2 k2 => mfree b ;;; r <- sum_handle_finalize_integrity_hash E h2 e ;;
         if (r =? 1)%Z then R 1%Z h2 k2 else error_set e E_RUNTIME_FINALIZE_FAILED ;;; R (-1)%Z h2 k2)
      (fun h2 k2 => mfree b ;;; R (-1)%Z h2 k2)) with (f1 := S (N.to_nat media)).
    - rewrite !bind_assoc. apply bind_ext. intros [z' k'] s3 _. cbn [fst snd]. destruct (z' =? 1)%Z.
      + rewrite bind_assoc. apply bind_ext. intros [] s4 _. unfold bind. unfold aborted at 1. rewrite end_abort.
        destruct (sum_handle_finalize_integrity_hash E h1 e s4) as [r s5|]; [|reflexivity]. destruct (r =? 1)%Z; [reflexivity|].
        unfold fail, bind, ret. destruct (error_set e E_RUNTIME_FINALIZE_FAILED s5) as [[] s6|]; reflexivity.
      + rewrite bind_assoc. apply bind_ext. intros [] s4 _. rewrite bind_ret. reflexivity.
    - exact B2.
    - lia.
    - exact HM.
    - intros h2 k2 pos count rs rc s3 HS. rewrite den_seq, (freed _ _ _ _ _ _ _ b); [|sev]. apply bind_ext. intros [] s4 _.
      rewrite den_seq, (emptied _ _ _ _ _ "buffer" _ (Some b) (pl (h_self h1) e h2 k2 pos None media count rs rc)) by reflexivity.
      rewrite den_seq, (checked _ _ _ _ _ Z) with (m := sum_handle_finalize_integrity_hash E h2 e) (g := fun r => r)
        (outs := fun _ => None :: None :: left_members (Some h2) k2 pos)
        (lr := fun _ => pl (h_self h1) e h2 k2 pos None media count rs rc)
        (vs := VBytes (h_self h1, 0) :: v_error e :: v_members (Some h2) k2 pos).
      + apply bind_ext. intros r s5 _. destruct (r =? 1)%Z; cbn [negb].
        * rewrite den_skip, den_return_int. apply Hret. auto.
        * erewrite jumped; [|reflexivity|reflexivity]. apply bind_ext. intros [] s6 _. rewrite Herr, bind_ret. reflexivity.
      + cbn [map member_names flat_map all_algs app]. sev.
      + reflexivity.
      + rewrite <- HS. change (VBytes (h_self h2, 0)) with (v_handle (Some h2)). rewrite text_finalize_integrity_hash. reflexivity.
      + reflexivity.
    - intros. apply Herr.
    - lia.
    - lia.
    - lia.
    - unfold aborted. cbn [Nat.ltb Nat.leb andb]. rewrite orb_false_r. now apply abort_same.
  Qed.
End Process.
