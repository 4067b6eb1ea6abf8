(* The text of the block processing of SHA-512. *)
From Coq Require Import Arith NArith ZArith List Lia Bool String.
From Verif Require Import Words Tables Machine Transform Context Hash CText TextSha512.
From Verif Require Import Spec Vocab MachineFacts TextFacts TextLoops TextMd5Facts TextSha1Facts.
Import ListNotations.
Open Scope string_scope.
Open Scope list_scope.
Open Scope N_scope.

Section Sha512.
  Variables (E : env) (P : program) (call : string -> list val -> M (val * list (option val))) (fuel : nat) (A : Type).
  Notation dn := (@den E P call fuel A).
  Hypothesis Hroots : find_assoc (p_tables P) "libhmac_sha512_context_prime_cube_roots" = Some (R64, sha512_cube_roots).
  Hypothesis Hlay : layout_of P SHA512 = Some layout_sha512.
  Variables (p : nat) (v er : val) (size : N).

  (* the four words are declared before buffer_offset here; [more] begins with them *)
  Definition sha512_locals (fl : bool * bool) (hv vals : list N) (off : N) (more : locals) : locals :=
    [("internal_context", VCtx SHA512 p); ("buffer", v); ("size", VU RSz size); ("error", er);
     ("hash_values", VArr R64 hv (fst fl)); ("values_64bit", VArr R64 vals (snd fl));
     ("s0", nth 0 (map snd more) VNull); ("s1", nth 1 (map snd more) VNull); ("t1", nth 2 (map snd more) VNull); ("t2", nth 3 (map snd more) VNull);
     ("buffer_offset", VU RSz off)] ++ skipn 4 more.

  Definition sha512_more (q : N * N * N * N) (idx : locals) : locals :=
    [("s0", VU R64 (fst (fst (fst q)))); ("s1", VU R64 (snd (fst (fst q)))); ("t1", VU R64 (snd (fst q))); ("t2", VU R64 (snd q))] ++ idx.

  Definition sha512_idx (hi vi : N) : locals := [("hash_values_index", VU R8 hi); ("value_64bit_index", VU R8 vi)].

  Definition sha512_ext (ie : expr) : stmt := libhmac_sha512_context_transform_extend_64bit_value (EVar "values_64bit") ie (EVar "s0") (EVar "s1").

  Lemma sha512_ext_text : libhmac_sha512_context_transform_unfolded_extend_64bit_values (EVar "values_64bit") (EVar "s0") (EVar "s1") =
    each (fun i => sha512_ext (ei i)) sha512_unfolded_extend.
  Proof. reflexivity. Qed.

  Ltac wrot G :=
    eapply w_or; [reflexivity
      | eapply w_shr; [reflexivity|reflexivity|exact G|wev|wnum|reflexivity]
      | eapply w_shl; [reflexivity|reflexivity|exact G|wev|wnum|reflexivity] ].

  Lemma sha512_ext_ok : forall ie kv i hv off q idx fl vals vals' s,
    (forall fl q ws, eval E P call ie (sha512_locals fl hv ws off (sha512_more q idx)) s = Done (kv, sha512_locals fl hv ws off (sha512_more q idx)) s) ->
    promote kv = VS R32 (Z.of_nat i) -> amount kv = Some (N.of_nat i) -> (i < 256)%nat ->
    sha2_extend sha512_code vals i = Some vals' -> exists q', forall (K : flow -> locals -> M A),
    dn (sha512_ext ie) (sha512_locals fl hv vals off (sha512_more q idx)) K s = K FNext (sha512_locals (fst fl, true) hv vals' off (sha512_more q' idx)) s.
  Proof.
    intros ie kv i hv off q idx fl vals vals' s Hie Hp Ha Hi H.
    unfold sha2_extend, sha2_small, amod, obind in H. cbn [sha512_code k_w k_ext0 k_ext1] in H. destruct (Nat.ltb_spec i 16); [discriminate|]. opts.
    assert (Old : forall q j y, (0 < j <= 16)%nat -> aget vals (i - j) = Some y ->
      eval E P call (EIndex (EVar "values_64bit") (EBin OSub ie (EInt (Z.of_nat j)))) (sha512_locals fl hv vals off (sha512_more q idx)) s =
      Done (VU R64 y, sha512_locals fl hv vals off (sha512_more q idx)) s).
    { intros q0 j y Hj Hy. eapply w_get; [reflexivity|eapply w_index_sub; [apply Hie|exact Hp|reflexivity|lia]|apply amount_nat|exact Hy]. }
    match goal with Q15 : aget vals (i - 15) = Some ?x15, Q2 : aget vals (i - 2) = Some ?x2, Q16 : aget vals (i - 16) = Some ?x16, Q7 : aget vals (i - 7) = Some ?x7 |- _ =>
      exists (N.lxor (N.lxor (rotr 64 x15 1) (rotr 64 x15 8)) (ushr x15 7), N.lxor (N.lxor (rotr 64 x2 19) (rotr 64 x2 61)) (ushr x2 6), snd (fst q), snd q);
      pose proof (fun q => Old q 15%nat x15 ltac:(lia) Q15) as G15; pose proof (fun q => Old q 2%nat x2 ltac:(lia) Q2) as G2;
      pose proof (fun q => Old q 16%nat x16 ltac:(lia) Q16) as G16; pose proof (fun q => Old q 7%nat x7 ltac:(lia) Q7) as G7;
      intros K; unfold sha512_ext, libhmac_sha512_context_transform_extend_64bit_value, byte_stream_bit_rotate_right_64bit; wst;
      (eapply do_word with (v := N.lxor (N.lxor (rotr 64 x15 1) (rotr 64 x15 8)) (ushr x15 7));
         [reflexivity| |reflexivity|]);
      [ eapply w_xor; [reflexivity|eapply w_xor; [reflexivity|wrot (G15 q)|wrot (G15 q)]|eapply w_shr; [reflexivity|reflexivity|exact (G15 q)|wev|wnum|reflexivity]] | ];
      tk; tk; wst;
      match goal with |- den _ ?lo _ _ = _ => change lo with (sha512_locals fl hv vals off (sha512_more (N.lxor (N.lxor (rotr 64 x15 1) (rotr 64 x15 8)) (ushr x15 7), snd (fst (fst q)), snd (fst q), snd q) idx)) end;
      (eapply do_word with (v := N.lxor (N.lxor (rotr 64 x2 19) (rotr 64 x2 61)) (ushr x2 6));
         [reflexivity| |reflexivity|]);
      [ eapply w_xor; [reflexivity|eapply w_xor; [reflexivity|wrot (G2 (N.lxor (N.lxor (rotr 64 x15 1) (rotr 64 x15 8)) (ushr x15 7), snd (fst (fst q)), snd (fst q), snd q))|wrot (G2 (N.lxor (N.lxor (rotr 64 x15 1) (rotr 64 x15 8)) (ushr x15 7), snd (fst (fst q)), snd (fst q), snd q))]|eapply w_shr; [reflexivity|reflexivity|apply G2|wev|wnum|reflexivity]] | ];
      tk; tk;
      match goal with |- den _ ?lo _ _ = _ => change lo with (sha512_locals fl hv vals off (sha512_more (N.lxor (N.lxor (rotr 64 x15 1) (rotr 64 x15 8)) (ushr x15 7), N.lxor (N.lxor (rotr 64 x2 19) (rotr 64 x2 61)) (ushr x2 6), snd (fst q), snd q) idx)) end;
      (eapply do_set; [ | reflexivity | apply Hie | exact Ha | exact H | reflexivity | ]);
      [ eapply w_add; [reflexivity|wbits|eapply w_add; [reflexivity|wbits|eapply w_add; [reflexivity|wbits|apply G16|wev]|apply G7]|wev] | ];
      reflexivity
    end.
  Qed.

  Definition sha512_mac (inv : nat * (nat * nat * nat * nat * nat * nat * nat * nat)) : stmt :=
    let '(vi, (i0, i1, i2, i3, i4, i5, i6, i7)) := inv in
    libhmac_sha512_context_transform_unfolded_calculate_hash_value (EVar "values_64bit") (ei vi) (EVar "hash_values")
      (ei i0) (ei i1) (ei i2) (ei i3) (ei i4) (ei i5) (ei i6) (ei i7) (EVar "s0") (EVar "s1") (EVar "t1") (EVar "t2").

  Lemma sha512_mac_text : libhmac_sha512_context_transform_unfolded_calculate_hash_values (EVar "values_64bit") (EVar "hash_values") (EVar "s0") (EVar "s1") (EVar "t1") (EVar "t2") =
    each sha512_mac sha512_unfolded.
  Proof. reflexivity. Qed.

  Lemma sha512_mac_ok : forall fl vals off q hv hv' inv s, sha2_macro sha512_code vals hv inv = Some hv' ->
    exists q', forall (K : flow -> locals -> M A),
    dn (sha512_mac inv) (sha512_locals fl hv vals off (sha512_more q [])) K s = K FNext (sha512_locals (true, snd fl) hv' vals off (sha512_more q' [])) s.
  Proof.
    intros fl vals off q hv hv' [vi [[[[[[[i0 i1] i2] i3] i4] i5] i6] i7]] s H.
    unfold sha2_macro, sha2_t, sha2_big, amod, obind in H. cbn [sha512_code k_w k_s0 k_s1 k_roots] in H. opts.
    match goal with Q : Some ?x = Some ?t |- _ => apply (f_equal (fun o => match o with Some y => y | None => x end)) in Q; cbv beta iota in Q; subst t end. cbn [fst snd] in *.
    eexists (_, _, _, _). intros K.
    unfold sha512_locals, sha512_more. cbn [app fst snd nth map skipn].
    match goal with |- den ?m _ _ _ = _ => let m' := eval hnf in m in change m with m' end.
    unfold ei, byte_stream_bit_rotate_right_64bit; repeat wst; reflexivity.
  Qed.

  Definition sha512_round : stmt :=
    SAssign (EVar "s0") (EBin OXor (EBin OXor (byte_stream_bit_rotate_right_64bit (EIndex (EVar "hash_values") (EInt 0)) (EInt 28)) (byte_stream_bit_rotate_right_64bit (EIndex (EVar "hash_values") (EInt 0)) (EInt 34))) (byte_stream_bit_rotate_right_64bit (EIndex (EVar "hash_values") (EInt 0)) (EInt 39))) ;-
    SAssign (EVar "s1") (EBin OXor (EBin OXor (byte_stream_bit_rotate_right_64bit (EIndex (EVar "hash_values") (EInt 4)) (EInt 14)) (byte_stream_bit_rotate_right_64bit (EIndex (EVar "hash_values") (EInt 4)) (EInt 18))) (byte_stream_bit_rotate_right_64bit (EIndex (EVar "hash_values") (EInt 4)) (EInt 41))) ;-
    SAssign (EVar "t1") (EIndex (EVar "hash_values") (EInt 7)) ;-
    SOp OAdd (EVar "t1") (EVar "s1") ;-
    SOp OAdd (EVar "t1") (EBin OXor (EBin OAnd (EIndex (EVar "hash_values") (EInt 4)) (EIndex (EVar "hash_values") (EInt 5))) (EBin OAnd (ENot (EIndex (EVar "hash_values") (EInt 4))) (EIndex (EVar "hash_values") (EInt 6)))) ;-
    SOp OAdd (EVar "t1") (EIndex (EVar "libhmac_sha512_context_prime_cube_roots") (EVar "value_64bit_index")) ;-
    SOp OAdd (EVar "t1") (EIndex (EVar "values_64bit") (EVar "value_64bit_index")) ;-
    SAssign (EVar "t2") (EVar "s0") ;-
    SOp OAdd (EVar "t2") (EBin OXor (EBin OXor (EBin OAnd (EIndex (EVar "hash_values") (EInt 0)) (EIndex (EVar "hash_values") (EInt 1))) (EBin OAnd (EIndex (EVar "hash_values") (EInt 0)) (EIndex (EVar "hash_values") (EInt 2)))) (EBin OAnd (EIndex (EVar "hash_values") (EInt 1)) (EIndex (EVar "hash_values") (EInt 2)))) ;-
    SAssign (EIndex (EVar "hash_values") (EInt 7)) (EIndex (EVar "hash_values") (EInt 6)) ;-
    SAssign (EIndex (EVar "hash_values") (EInt 6)) (EIndex (EVar "hash_values") (EInt 5)) ;-
    SAssign (EIndex (EVar "hash_values") (EInt 5)) (EIndex (EVar "hash_values") (EInt 4)) ;-
    SAssign (EIndex (EVar "hash_values") (EInt 4)) (EBin OAdd (EIndex (EVar "hash_values") (EInt 3)) (EVar "t1")) ;-
    SAssign (EIndex (EVar "hash_values") (EInt 3)) (EIndex (EVar "hash_values") (EInt 2)) ;-
    SAssign (EIndex (EVar "hash_values") (EInt 2)) (EIndex (EVar "hash_values") (EInt 1)) ;-
    SAssign (EIndex (EVar "hash_values") (EInt 1)) (EIndex (EVar "hash_values") (EInt 0)) ;-
    SAssign (EIndex (EVar "hash_values") (EInt 0)) (EBin OAdd (EVar "t1") (EVar "t2")).

  Lemma sha512_round_ok : forall fl vals off q hv hv' i s hi, sha2_loop_step sha512_code vals hv i = Some hv' -> (i < 80)%nat ->
    exists q', forall (K : flow -> locals -> M A),
    dn (SSeq sha512_round (SOp OAdd (EVar "value_64bit_index") (EInt 1))) (sha512_locals fl hv vals off (sha512_more q (sha512_idx hi (N.of_nat i)))) K s =
    K FNext (sha512_locals (true, snd fl) hv' vals off (sha512_more q' (sha512_idx hi (N.of_nat (S i))))) s.
  Proof.
    intros fl vals off q hv hv' i s hi H Hi.
    unfold sha2_loop_step, sha2_t, sha2_big, amod, obind in H. cbn [sha512_code k_w k_s0 k_s1 k_roots] in H. opts.
    match goal with Q : Some ?x = Some ?t |- _ => apply (f_equal (fun o => match o with Some y => y | None => x end)) in Q; cbv beta iota in Q; subst t end. cbn [fst snd] in *.
    eexists (_, _, _, _). intros K. unfold sha512_round, byte_stream_bit_rotate_right_64bit, sha512_locals, sha512_more, sha512_idx.
    cbn [app fst snd nth map skipn]. repeat wst.
    eapply do_inc; [bypair|lia|bypair|]. reflexivity.
  Qed.

  Definition sha512_inner (u : bool) : stmt :=
    if u then
      libhmac_byte_stream_copy_to_16x_uint64_big_endian here (EVar "values_64bit") ;-
      SOp OAdd (EVar "buffer_offset") (EInt 128) ;-
      libhmac_sha512_context_transform_unfolded_extend_64bit_values (EVar "values_64bit") (EVar "s0") (EVar "s1") ;-
      libhmac_sha512_context_transform_unfolded_calculate_hash_values (EVar "values_64bit") (EVar "hash_values") (EVar "s0") (EVar "s1") (EVar "t1") (EVar "t2") ;-
      each (fun i => add_text (ei i)) (seq 0 8)
    else
      SFor (SAssign (EVar "value_64bit_index") (EInt 0)) (EBin OLt (EVar "value_64bit_index") (EInt 16)) (SOp OAdd (EVar "value_64bit_index") (EInt 1))
        (copy_text (EIndex (EVar "values_64bit") (EVar "value_64bit_index")) (map (fun n => EIndex here (EInt (Z.of_N n))) order_be64) ;-
         SOp OAdd (EVar "buffer_offset") (ESize (64 / 8))) ;-
      SFor (SAssign (EVar "value_64bit_index") (EInt 16)) (EBin OLt (EVar "value_64bit_index") (EInt (Z.of_nat 80))) (SOp OAdd (EVar "value_64bit_index") (EInt 1))
        (sha512_ext (EVar "value_64bit_index")) ;-
      SFor (SAssign (EVar "value_64bit_index") (EInt 0)) (EBin OLt (EVar "value_64bit_index") (EInt (Z.of_nat 80))) (SOp OAdd (EVar "value_64bit_index") (EInt 1)) sha512_round ;-
      SFor (SAssign (EVar "hash_values_index") (EInt 0)) (EBin OLt (EVar "hash_values_index") (EInt (Z.of_nat 8))) (SOp OAdd (EVar "hash_values_index") (EInt 1))
        (add_text (EVar "hash_values_index")).

  Definition sha512_ok (u : bool) (more : locals) : Prop :=
    if u then exists q, more = sha512_more q [] else exists q hi vi, more = sha512_more q (sha512_idx hi vi).

  Hypothesis Hva : is_arr v = false.
  Hypothesis Hfuel : (100 <= fuel)%nat.

  Lemma sha512_inner_ok : forall u fl vals off more s c buf off' h' hv' vals', sha512_ok u more ->
    get_obj s p = Some (OCtx SHA512 c) -> readable P s v buf -> Forall is_byte buf -> off + 128 < size_mod E ->
    sha2_block sha512_code u buf off (c_hash c) vals = Some (off', h', hv', vals') ->
    exists fl' more', sha512_ok u more' /\ forall (K : flow -> locals -> M A),
      dn (sha512_inner u) (sha512_locals fl (c_hash c) vals off more) K s =
      K FNext (sha512_locals fl' hv' vals' off' more') (with_hash SHA512 p c s h').
  Proof.
    intros u fl vals off more s c buf off' h' hv' vals' Hm Hp Hr Hby Hoff H. unfold sha2_block in H.
    cbn [sha512_code k_w k_order k_copy16 k_extend k_unfolded k_rounds] in H. destruct u; cbn [sha512_ok] in Hm.
    - destruct Hm as (q & ->). unfold obind in H. opts. injection H as <- <- <- <-.
      destruct (copy16_each E P call fuel A "values_64bit" R64 64 3 order_be64 s v buf eq_refl eq_refl ltac:(lia) ltac:(discriminate) ltac:(discriminate)
        Hva Hr Hby ltac:(repeat constructor) ltac:(lia) eq_refl (fun f ws => sha512_locals (fst fl, f) (c_hash c) ws off (sha512_more q [])) copy_16x_uint64_big off vals l (snd fl))
        as (f1 & C1); try reflexivity; try assumption; [repeat constructor; lia|].
      destruct (each_fold E P call fuel A (bool * bool * (N * N * N * N)) (list N) _ (fun i => sha512_ext (ei i)) (sha2_extend sha512_code)
        (fun u ws => sha512_locals (fst u) (c_hash c) ws (off + 128) (sha512_more (snd u) [])) (fun _ => s)
        sha512_unfolded_extend l l0 ((fst fl, f1), q)) as ([fl2 q2] & C2); [|assumption|].
      { intros [fl0 q0] y y' i Hi Hs. cbn [fst snd].
        edestruct (sha512_ext_ok (ei i) (VS R32 (Z.of_nat i)) i (c_hash c) (off + 128) q0 [] fl0 y y' s) as (q' & Q); [intros; reflexivity|reflexivity|apply amount_nat| |exact Hs|].
        - now apply (small_all sha512_unfolded_extend eq_refl).
        - exists ((fst fl0, true), q'). exact Q. }
      destruct (each_fold E P call fuel A (bool * bool * (N * N * N * N)) (list N) _ sha512_mac (sha2_macro sha512_code l0)
        (fun u hv => sha512_locals (fst u) hv l0 (off + 128) (sha512_more (snd u) [])) (fun _ => s)
        sha512_unfolded (c_hash c) l1 (fl2, q2)) as ([fl3 q3] & C3); [|assumption|].
      { intros [fl0 q0] y y' i _ Hs. cbn [fst snd]. destruct (sha512_mac_ok fl0 l0 (off + 128) q0 y y' i s Hs) as (q' & Q).
        exists ((true, snd fl0), q'). exact Q. }
      cbn [fst snd] in *.
      exists fl3, (sha512_more q3 []). split; [exists q3; reflexivity|]. intros K. unfold sha512_inner. wst. rewrite <- surjective_pairing in C1.
      etransitivity; [apply C1|]. repeat wst.
      eapply do_op; [eapply ev_var; [bypair|reflexivity]|reflexivity
        |eapply bin_us; [reflexivity|reflexivity|discriminate|discriminate|tunum|reflexivity]|eapply as_u; [bypair|apply tu_same|bypair]|].
      repeat wst.
      assert (uadd (bits E RSz) off 128 = off + 128) as -> by (unfold uadd; rewrite bits_size_mod; now apply N.mod_small).
      rewrite sha512_ext_text. etransitivity; [apply C2|]. repeat wst.
      rewrite sha512_mac_text. etransitivity; [apply C3|]. repeat wst.
      eapply add_each with (w := 64) (r := R64); first [eassumption | reflexivity].
    - destruct Hm as (q & hi & vi & ->). unfold obind in H. destruct (copy_loop 64 order_be64 buf off vals) as [[off1 vals1]|] eqn:Hc; [|discriminate].
      opts. injection H as <- <- <- <-.
      destruct (copy16_for E P call fuel A "values_64bit" "value_64bit_index" R64 64 3 order_be64 s v buf eq_refl eq_refl ltac:(lia) ltac:(discriminate) ltac:(discriminate)
        ltac:(discriminate) Hva Hr Hby eq_refl (fun f ws i => sha512_locals (fst fl, f) (c_hash c) (snd ws) (fst ws) (sha512_more q (sha512_idx hi (N.of_nat i))))
        off vals off1 vals1 (snd fl) (sha512_locals fl (c_hash c) vals off (sha512_more q (sha512_idx hi vi))) vi) as (f1 & C1); try reflexivity; try assumption; try lia.
      destruct (for_fold E P call fuel A (bool * bool * (N * N * N * N)) (list N) (fun _ _ => True) (sha2_extend sha512_code)
        (fun u ws i => sha512_locals (fst u) (c_hash c) ws off1 (sha512_more (snd u) (sha512_idx hi (N.of_nat i)))) (fun _ => s)
        (EBin OLt (EVar "value_64bit_index") (EInt (Z.of_nat 80))) (sha512_ext (EVar "value_64bit_index")) (SOp OAdd (EVar "value_64bit_index") (EInt 1)) 64 16 fuel vals1 l
        ((fst fl, f1), q)) as ([fl2 q2] & C2); [|exact I| |assumption|lia|].
      { intros. apply (w_counter_lt E P call _ _ _ i 80). reflexivity. }
      { intros [fl0 q0] y y' i Hi _ Hs. split; [exact I|]. cbn [fst snd].
        destruct (sha512_ext_ok (EVar "value_64bit_index") (VU R8 (N.of_nat i)) i (c_hash c) off1 q0 (sha512_idx hi (N.of_nat i)) fl0 y y' s) as (q' & Q);
          [intros; eapply ev_var; [bypair|reflexivity]|apply promote_counter|apply amount_u|lia|exact Hs|].
        exists ((fst fl0, true), q'). intros K. wst. etransitivity; [apply Q|]. tk. tk.
        eapply do_inc; [bypair|lia|bypair|reflexivity]. }
      destruct (for_fold E P call fuel A (bool * bool * (N * N * N * N)) (list N) (fun _ _ => True) (sha2_loop_step sha512_code l)
        (fun u hv i => sha512_locals (fst u) hv l off1 (sha512_more (snd u) (sha512_idx hi (N.of_nat i)))) (fun _ => s)
        (EBin OLt (EVar "value_64bit_index") (EInt (Z.of_nat 80))) sha512_round (SOp OAdd (EVar "value_64bit_index") (EInt 1)) 80 0 fuel (c_hash c) l0
        (fl2, q2)) as ([fl3 q3] & C3); [|exact I| |assumption|lia|].
      { intros. apply w_counter_lt. reflexivity. }
      { intros [fl1 q1] y y' i Hi _ Hs. split; [exact I|]. cbn [fst snd].
        destruct (sha512_round_ok fl1 l off1 q1 y y' i s hi Hs ltac:(lia)) as (q' & Q). exists ((true, snd fl1), q'). exact Q. }
      exists fl3, (sha512_more q3 (sha512_idx (N.of_nat 8) (N.of_nat 80))). split; [repeat eexists|]. intros K. unfold sha512_inner. wst.
      etransitivity; [apply C1|]. repeat wst. rewrite den_for.
      eapply do_assign; [reflexivity|eapply as_u; [bypair|apply tu_byte; lia|bypair]|].
      etransitivity; [apply C2|]. repeat wst. cbn [fst snd]. rewrite den_for.
      eapply do_assign; [reflexivity|eapply as_u; [bypair|apply tu_byte; lia|bypair]|].
      etransitivity; [apply C3|]. repeat wst. cbn [fst snd].
      eapply add_for with (w := 64) (r := R64) (Lc := fun i => sha512_locals fl3 l0 l off1 (sha512_more q3 (sha512_idx (N.of_nat i) (N.of_nat 80)))); first [eassumption | reflexivity | lia].
  Qed.
End Sha512.
