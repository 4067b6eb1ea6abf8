(* The text of the block processing of SHA-256. *)
From Coq Require Import Arith NArith ZArith List Lia Bool String.
From Verif Require Import Words Tables Machine Transform Context Hash CText TextSha256.
From Verif Require Import Spec Vocab MachineFacts TextFacts TextLoops TextMd5Facts TextSha1Facts.
Import ListNotations.
Open Scope string_scope.
Open Scope list_scope.
Open Scope N_scope.

Section Sha256.
  Variables (E : env) (P : program) (call : string -> list val -> M (val * list (option val))) (fuel : nat) (A : Type).
  Notation dn := (@den E P call fuel A).
  Hypothesis Hroots : find_assoc (p_tables P) "libhmac_sha256_context_prime_cube_roots" = Some (R32, sha256_cube_roots).
  Hypothesis Hlay : layout_of P SHA256 = Some layout_sha256.
  Variables (p : nat) (v er : val) (size : N).

  Definition sha256_locals (fl : bool * bool) (hv vals : list N) (off : N) (more : locals) : locals :=
    [("internal_context", VCtx SHA256 p); ("buffer", v); ("size", VU RSz size); ("error", er);
     ("hash_values", VArr R32 hv (fst fl)); ("values_32bit", VArr R32 vals (snd fl)); ("buffer_offset", VU RSz off)] ++ more.

  Definition sha256_more (q : N * N * N * N) (idx : locals) : locals :=
    [("s0", VU R32 (fst (fst (fst q)))); ("s1", VU R32 (snd (fst (fst q)))); ("t1", VU R32 (snd (fst q))); ("t2", VU R32 (snd q))] ++ idx.

  Definition sha256_idx (hi vi : N) : locals := [("hash_values_index", VU R8 hi); ("value_32bit_index", VU R8 vi)].

  Definition sha256_ext (ie : expr) : stmt := libhmac_sha256_context_transform_extend_32bit_value (EVar "values_32bit") ie (EVar "s0") (EVar "s1").

  Lemma sha256_ext_text : libhmac_sha256_context_transform_unfolded_extend_32bit_values (EVar "values_32bit") (EVar "s0") (EVar "s1") =
    each (fun i => sha256_ext (ei i)) sha256_unfolded_extend.
  Proof. reflexivity. Qed.

  Ltac wrot G :=
    eapply w_or; [reflexivity
      | eapply w_shr; [reflexivity|reflexivity|exact G|wev|wnum|reflexivity]
      | eapply w_shl; [reflexivity|reflexivity|exact G|wev|wnum|reflexivity] ].

  Lemma sha256_ext_ok : forall ie kv i hv off q idx fl vals vals' s,
    (forall fl q ws, eval E P call ie (sha256_locals fl hv ws off (sha256_more q idx)) s = Done (kv, sha256_locals fl hv ws off (sha256_more q idx)) s) ->
    promote kv = VS R32 (Z.of_nat i) -> amount kv = Some (N.of_nat i) -> (i < 256)%nat ->
    sha2_extend sha256_code vals i = Some vals' -> exists q', forall (K : flow -> locals -> M A),
    dn (sha256_ext ie) (sha256_locals fl hv vals off (sha256_more q idx)) K s = K FNext (sha256_locals (fst fl, true) hv vals' off (sha256_more q' idx)) s.
  Proof.
    intros ie kv i hv off q idx fl vals vals' s Hie Hp Ha Hi H.
    unfold sha2_extend, sha2_small, amod, obind in H. cbn [sha256_code k_w k_ext0 k_ext1] in H. destruct (Nat.ltb_spec i 16); [discriminate|]. opts.
    assert (Old : forall q j y, (0 < j <= 16)%nat -> aget vals (i - j) = Some y ->
      eval E P call (EIndex (EVar "values_32bit") (EBin OSub ie (EInt (Z.of_nat j)))) (sha256_locals fl hv vals off (sha256_more q idx)) s =
      Done (VU R32 y, sha256_locals fl hv vals off (sha256_more q idx)) s).
    { intros q0 j y Hj Hy. eapply w_get; [reflexivity|eapply w_index_sub; [apply Hie|exact Hp|reflexivity|lia]|apply amount_nat|exact Hy]. }
    match goal with Q15 : aget vals (i - 15) = Some ?x15, Q2 : aget vals (i - 2) = Some ?x2, Q16 : aget vals (i - 16) = Some ?x16, Q7 : aget vals (i - 7) = Some ?x7 |- _ =>
      exists (N.lxor (N.lxor (rotr 32 x15 7) (rotr 32 x15 18)) (ushr x15 3), N.lxor (N.lxor (rotr 32 x2 17) (rotr 32 x2 19)) (ushr x2 10), snd (fst q), snd q);
      pose proof (fun q => Old q 15%nat x15 ltac:(lia) Q15) as G15; pose proof (fun q => Old q 2%nat x2 ltac:(lia) Q2) as G2;
      pose proof (fun q => Old q 16%nat x16 ltac:(lia) Q16) as G16; pose proof (fun q => Old q 7%nat x7 ltac:(lia) Q7) as G7;
      intros K; unfold sha256_ext, libhmac_sha256_context_transform_extend_32bit_value, byte_stream_bit_rotate_right_32bit; wst;
      (eapply do_word with (v := N.lxor (N.lxor (rotr 32 x15 7) (rotr 32 x15 18)) (ushr x15 3));
         [reflexivity| |reflexivity|]);
      [ eapply w_xor; [reflexivity|eapply w_xor; [reflexivity|wrot (G15 q)|wrot (G15 q)]|eapply w_shr; [reflexivity|reflexivity|exact (G15 q)|wev|wnum|reflexivity]] | ];
      tk; tk; wst;
      match goal with |- den _ ?lo _ _ = _ => change lo with (sha256_locals fl hv vals off (sha256_more (N.lxor (N.lxor (rotr 32 x15 7) (rotr 32 x15 18)) (ushr x15 3), snd (fst (fst q)), snd (fst q), snd q) idx)) end;
      (eapply do_word with (v := N.lxor (N.lxor (rotr 32 x2 17) (rotr 32 x2 19)) (ushr x2 10));
         [reflexivity| |reflexivity|]);
      [ eapply w_xor; [reflexivity|eapply w_xor; [reflexivity|wrot (G2 (N.lxor (N.lxor (rotr 32 x15 7) (rotr 32 x15 18)) (ushr x15 3), snd (fst (fst q)), snd (fst q), snd q))|wrot (G2 (N.lxor (N.lxor (rotr 32 x15 7) (rotr 32 x15 18)) (ushr x15 3), snd (fst (fst q)), snd (fst q), snd q))]|eapply w_shr; [reflexivity|reflexivity|apply G2|wev|wnum|reflexivity]] | ];
      tk; tk;
      match goal with |- den _ ?lo _ _ = _ => change lo with (sha256_locals fl hv vals off (sha256_more (N.lxor (N.lxor (rotr 32 x15 7) (rotr 32 x15 18)) (ushr x15 3), N.lxor (N.lxor (rotr 32 x2 17) (rotr 32 x2 19)) (ushr x2 10), snd (fst q), snd q) idx)) end;
      (eapply do_set; [ | reflexivity | apply Hie | exact Ha | exact H | reflexivity | ]);
      [ eapply w_add; [reflexivity|wbits|eapply w_add; [reflexivity|wbits|eapply w_add; [reflexivity|wbits|apply G16|wev]|apply G7]|wev] | ];
      reflexivity
    end.
  Qed.

  Definition sha256_mac (inv : nat * (nat * nat * nat * nat * nat * nat * nat * nat)) : stmt :=
    let '(vi, (i0, i1, i2, i3, i4, i5, i6, i7)) := inv in
    libhmac_sha256_context_transform_unfolded_calculate_hash_value (EVar "values_32bit") (ei vi) (EVar "hash_values")
      (ei i0) (ei i1) (ei i2) (ei i3) (ei i4) (ei i5) (ei i6) (ei i7) (EVar "s0") (EVar "s1") (EVar "t1") (EVar "t2").

  Lemma sha256_mac_text : libhmac_sha256_context_transform_unfolded_calculate_hash_values (EVar "values_32bit") (EVar "hash_values") (EVar "s0") (EVar "s1") (EVar "t1") (EVar "t2") =
    each sha256_mac sha256_unfolded.
  Proof. reflexivity. Qed.

  Lemma sha256_mac_ok : forall fl vals off q hv hv' inv s, sha2_macro sha256_code vals hv inv = Some hv' ->
    exists q', forall (K : flow -> locals -> M A),
    dn (sha256_mac inv) (sha256_locals fl hv vals off (sha256_more q [])) K s = K FNext (sha256_locals (true, snd fl) hv' vals off (sha256_more q' [])) s.
  Proof.
    intros fl vals off q hv hv' [vi [[[[[[[i0 i1] i2] i3] i4] i5] i6] i7]] s H.
    unfold sha2_macro, sha2_t, sha2_big, amod, obind in H. cbn [sha256_code k_w k_s0 k_s1 k_roots] in H. opts.
    match goal with Q : Some ?x = Some ?t |- _ => apply (f_equal (fun o => match o with Some y => y | None => x end)) in Q; cbv beta iota in Q; subst t end. cbn [fst snd] in *.
    eexists (_, _, _, _). intros K.
    unfold sha256_locals, sha256_more. cbn [app fst snd nth map skipn].
    match goal with |- den ?m _ _ _ = _ => let m' := eval hnf in m in change m with m' end.
    unfold ei, byte_stream_bit_rotate_right_32bit; repeat wst; reflexivity.
  Qed.

  Definition sha256_round : stmt :=
    SAssign (EVar "s0") (EBin OXor (EBin OXor (byte_stream_bit_rotate_right_32bit (EIndex (EVar "hash_values") (EInt 0)) (EInt 2)) (byte_stream_bit_rotate_right_32bit (EIndex (EVar "hash_values") (EInt 0)) (EInt 13))) (byte_stream_bit_rotate_right_32bit (EIndex (EVar "hash_values") (EInt 0)) (EInt 22))) ;-
    SAssign (EVar "s1") (EBin OXor (EBin OXor (byte_stream_bit_rotate_right_32bit (EIndex (EVar "hash_values") (EInt 4)) (EInt 6)) (byte_stream_bit_rotate_right_32bit (EIndex (EVar "hash_values") (EInt 4)) (EInt 11))) (byte_stream_bit_rotate_right_32bit (EIndex (EVar "hash_values") (EInt 4)) (EInt 25))) ;-
    SAssign (EVar "t1") (EIndex (EVar "hash_values") (EInt 7)) ;-
    SOp OAdd (EVar "t1") (EVar "s1") ;-
    SOp OAdd (EVar "t1") (EBin OXor (EBin OAnd (EIndex (EVar "hash_values") (EInt 4)) (EIndex (EVar "hash_values") (EInt 5))) (EBin OAnd (ENot (EIndex (EVar "hash_values") (EInt 4))) (EIndex (EVar "hash_values") (EInt 6)))) ;-
    SOp OAdd (EVar "t1") (EIndex (EVar "libhmac_sha256_context_prime_cube_roots") (EVar "value_32bit_index")) ;-
    SOp OAdd (EVar "t1") (EIndex (EVar "values_32bit") (EVar "value_32bit_index")) ;-
    SAssign (EVar "t2") (EVar "s0") ;-
    SOp OAdd (EVar "t2") (EBin OXor (EBin OXor (EBin OAnd (EIndex (EVar "hash_values") (EInt 0)) (EIndex (EVar "hash_values") (EInt 1))) (EBin OAnd (EIndex (EVar "hash_values") (EInt 0)) (EIndex (EVar "hash_values") (EInt 2)))) (EBin OAnd (EIndex (EVar "hash_values") (EInt 1)) (EIndex (EVar "hash_values") (EInt 2)))) ;-
    SAssign (EIndex (EVar "hash_values") (EInt 7)) (EIndex (EVar "hash_values") (EInt 6)) ;-
    SAssign (EIndex (EVar "hash_values") (EInt 6)) (EIndex (EVar "hash_values") (EInt 5)) ;-
    SAssign (EIndex (EVar "hash_values") (EInt 5)) (EIndex (EVar "hash_values") (EInt 4)) ;-
    SAssign (EIndex (EVar "hash_values") (EInt 4)) (EBin OAdd (EIndex (EVar "hash_values") (EInt 3)) (EVar "t1")) ;-
    SAssign (EIndex (EVar "hash_values") (EInt 3)) (EIndex (EVar "hash_values") (EInt 2)) ;-
    SAssign (EIndex (EVar "hash_values") (EInt 2)) (EIndex (EVar "hash_values") (EInt 1)) ;-
    SAssign (EIndex (EVar "hash_values") (EInt 1)) (EIndex (EVar "hash_values") (EInt 0)) ;-
    SAssign (EIndex (EVar "hash_values") (EInt 0)) (EBin OAdd (EVar "t1") (EVar "t2")).

  Lemma sha256_round_ok : forall fl vals off q hv hv' i s hi, sha2_loop_step sha256_code vals hv i = Some hv' -> (i < 80)%nat ->
    exists q', forall (K : flow -> locals -> M A),
    dn (SSeq sha256_round (SOp OAdd (EVar "value_32bit_index") (EInt 1))) (sha256_locals fl hv vals off (sha256_more q (sha256_idx hi (N.of_nat i)))) K s =
    K FNext (sha256_locals (true, snd fl) hv' vals off (sha256_more q' (sha256_idx hi (N.of_nat (S i))))) s.
  Proof.
    intros fl vals off q hv hv' i s hi H Hi.
    unfold sha2_loop_step, sha2_t, sha2_big, amod, obind in H. cbn [sha256_code k_w k_s0 k_s1 k_roots] in H. opts.
    match goal with Q : Some ?x = Some ?t |- _ => apply (f_equal (fun o => match o with Some y => y | None => x end)) in Q; cbv beta iota in Q; subst t end. cbn [fst snd] in *.
    eexists (_, _, _, _). intros K. unfold sha256_round, byte_stream_bit_rotate_right_32bit, sha256_locals, sha256_more, sha256_idx.
    cbn [app fst snd nth map skipn]. repeat wst.
    eapply do_inc; [bypair|lia|bypair|]. reflexivity.
  Qed.

  Definition sha256_inner (u : bool) : stmt :=
    if u then
      libhmac_byte_stream_copy_to_16x_uint32_big_endian here (EVar "values_32bit") ;-
      SOp OAdd (EVar "buffer_offset") (EInt 64) ;-
      libhmac_sha256_context_transform_unfolded_extend_32bit_values (EVar "values_32bit") (EVar "s0") (EVar "s1") ;-
      libhmac_sha256_context_transform_unfolded_calculate_hash_values (EVar "values_32bit") (EVar "hash_values") (EVar "s0") (EVar "s1") (EVar "t1") (EVar "t2") ;-
      each (fun i => add_text (ei i)) (seq 0 8)
    else
      SFor (SAssign (EVar "value_32bit_index") (EInt 0)) (EBin OLt (EVar "value_32bit_index") (EInt 16)) (SOp OAdd (EVar "value_32bit_index") (EInt 1))
        (copy_text (EIndex (EVar "values_32bit") (EVar "value_32bit_index")) (map (fun n => EIndex here (EInt (Z.of_N n))) order_be32) ;-
         SOp OAdd (EVar "buffer_offset") (ESize (32 / 8))) ;-
      SFor (SAssign (EVar "value_32bit_index") (EInt 16)) (EBin OLt (EVar "value_32bit_index") (EInt (Z.of_nat 64))) (SOp OAdd (EVar "value_32bit_index") (EInt 1))
        (sha256_ext (EVar "value_32bit_index")) ;-
      SFor (SAssign (EVar "value_32bit_index") (EInt 0)) (EBin OLt (EVar "value_32bit_index") (EInt (Z.of_nat 64))) (SOp OAdd (EVar "value_32bit_index") (EInt 1)) sha256_round ;-
      SFor (SAssign (EVar "hash_values_index") (EInt 0)) (EBin OLt (EVar "hash_values_index") (EInt (Z.of_nat 8))) (SOp OAdd (EVar "hash_values_index") (EInt 1))
        (add_text (EVar "hash_values_index")).

  Definition sha256_ok (u : bool) (more : locals) : Prop :=
    if u then exists q, more = sha256_more q [] else exists q hi vi, more = sha256_more q (sha256_idx hi vi).

  Hypothesis Hva : is_arr v = false.
  Hypothesis Hfuel : (100 <= fuel)%nat.

  Lemma sha256_inner_ok : forall u fl vals off more s c buf off' h' hv' vals', sha256_ok u more ->
    get_obj s p = Some (OCtx SHA256 c) -> readable P s v buf -> Forall is_byte buf -> off + 64 < size_mod E ->
    sha2_block sha256_code u buf off (c_hash c) vals = Some (off', h', hv', vals') ->
    exists fl' more', sha256_ok u more' /\ forall (K : flow -> locals -> M A),
      dn (sha256_inner u) (sha256_locals fl (c_hash c) vals off more) K s =
      K FNext (sha256_locals fl' hv' vals' off' more') (with_hash SHA256 p c s h').
  Proof.
    intros u fl vals off more s c buf off' h' hv' vals' Hm Hp Hr Hby Hoff H. unfold sha2_block in H.
    cbn [sha256_code k_w k_order k_copy16 k_extend k_unfolded k_rounds] in H. destruct u; cbn [sha256_ok] in Hm.
    - destruct Hm as (q & ->). unfold obind in H. opts. injection H as <- <- <- <-.
      destruct (copy16_each E P call fuel A "values_32bit" R32 32 2 order_be32 s v buf eq_refl eq_refl ltac:(lia) ltac:(discriminate) ltac:(discriminate)
        Hva Hr Hby ltac:(repeat constructor) ltac:(lia) eq_refl (fun f ws => sha256_locals (fst fl, f) (c_hash c) ws off (sha256_more q [])) copy_16x_uint32_big off vals l (snd fl))
        as (f1 & C1); try reflexivity; try assumption; [repeat constructor; lia|].
      destruct (each_fold E P call fuel A (bool * bool * (N * N * N * N)) (list N) _ (fun i => sha256_ext (ei i)) (sha2_extend sha256_code)
        (fun u ws => sha256_locals (fst u) (c_hash c) ws (off + 64) (sha256_more (snd u) [])) (fun _ => s)
        sha256_unfolded_extend l l0 ((fst fl, f1), q)) as ([fl2 q2] & C2); [|assumption|].
      { intros [fl0 q0] y y' i Hi Hs. cbn [fst snd].
        edestruct (sha256_ext_ok (ei i) (VS R32 (Z.of_nat i)) i (c_hash c) (off + 64) q0 [] fl0 y y' s) as (q' & Q); [intros; reflexivity|reflexivity|apply amount_nat| |exact Hs|].
        - now apply (small_all sha256_unfolded_extend eq_refl).
        - exists ((fst fl0, true), q'). exact Q. }
      destruct (each_fold E P call fuel A (bool * bool * (N * N * N * N)) (list N) _ sha256_mac (sha2_macro sha256_code l0)
        (fun u hv => sha256_locals (fst u) hv l0 (off + 64) (sha256_more (snd u) [])) (fun _ => s)
        sha256_unfolded (c_hash c) l1 (fl2, q2)) as ([fl3 q3] & C3); [|assumption|].
      { intros [fl0 q0] y y' i _ Hs. cbn [fst snd]. destruct (sha256_mac_ok fl0 l0 (off + 64) q0 y y' i s Hs) as (q' & Q).
        exists ((true, snd fl0), q'). exact Q. }
      cbn [fst snd] in *.
      exists fl3, (sha256_more q3 []). split; [exists q3; reflexivity|]. intros K. unfold sha256_inner. wst. rewrite <- surjective_pairing in C1.
      etransitivity; [apply C1|]. repeat wst.
      eapply do_op; [eapply ev_var; [bypair|reflexivity]|reflexivity
        |eapply bin_us; [reflexivity|reflexivity|discriminate|discriminate|tunum|reflexivity]|eapply as_u; [bypair|apply tu_same|bypair]|].
      repeat wst.
      assert (uadd (bits E RSz) off 64 = off + 64) as -> by (unfold uadd; rewrite bits_size_mod; now apply N.mod_small).
      rewrite sha256_ext_text. etransitivity; [apply C2|]. repeat wst.
      rewrite sha256_mac_text. etransitivity; [apply C3|]. repeat wst.
      eapply add_each with (w := 32) (r := R32); first [eassumption | reflexivity].
    - destruct Hm as (q & hi & vi & ->). unfold obind in H. destruct (copy_loop 32 order_be32 buf off vals) as [[off1 vals1]|] eqn:Hc; [|discriminate].
      opts. injection H as <- <- <- <-.
      destruct (copy16_for E P call fuel A "values_32bit" "value_32bit_index" R32 32 2 order_be32 s v buf eq_refl eq_refl ltac:(lia) ltac:(discriminate) ltac:(discriminate)
        ltac:(discriminate) Hva Hr Hby eq_refl (fun f ws i => sha256_locals (fst fl, f) (c_hash c) (snd ws) (fst ws) (sha256_more q (sha256_idx hi (N.of_nat i))))
        off vals off1 vals1 (snd fl) (sha256_locals fl (c_hash c) vals off (sha256_more q (sha256_idx hi vi))) vi) as (f1 & C1); try reflexivity; try assumption; try lia.
      destruct (for_fold E P call fuel A (bool * bool * (N * N * N * N)) (list N) (fun _ _ => True) (sha2_extend sha256_code)
        (fun u ws i => sha256_locals (fst u) (c_hash c) ws off1 (sha256_more (snd u) (sha256_idx hi (N.of_nat i)))) (fun _ => s)
        (EBin OLt (EVar "value_32bit_index") (EInt (Z.of_nat 64))) (sha256_ext (EVar "value_32bit_index")) (SOp OAdd (EVar "value_32bit_index") (EInt 1)) 48 16 fuel vals1 l
        ((fst fl, f1), q)) as ([fl2 q2] & C2); [|exact I| |assumption|lia|].
      { intros. apply (w_counter_lt E P call _ _ _ i 64). reflexivity. }
      { intros [fl0 q0] y y' i Hi _ Hs. split; [exact I|]. cbn [fst snd].
        destruct (sha256_ext_ok (EVar "value_32bit_index") (VU R8 (N.of_nat i)) i (c_hash c) off1 q0 (sha256_idx hi (N.of_nat i)) fl0 y y' s) as (q' & Q);
          [intros; eapply ev_var; [bypair|reflexivity]|apply promote_counter|apply amount_u|lia|exact Hs|].
        exists ((fst fl0, true), q'). intros K. wst. etransitivity; [apply Q|]. tk. tk.
        eapply do_inc; [bypair|lia|bypair|reflexivity]. }
      destruct (for_fold E P call fuel A (bool * bool * (N * N * N * N)) (list N) (fun _ _ => True) (sha2_loop_step sha256_code l)
        (fun u hv i => sha256_locals (fst u) hv l off1 (sha256_more (snd u) (sha256_idx hi (N.of_nat i)))) (fun _ => s)
        (EBin OLt (EVar "value_32bit_index") (EInt (Z.of_nat 64))) sha256_round (SOp OAdd (EVar "value_32bit_index") (EInt 1)) 64 0 fuel (c_hash c) l0
        (fl2, q2)) as ([fl3 q3] & C3); [|exact I| |assumption|lia|].
      { intros. apply w_counter_lt. reflexivity. }
      { intros [fl1 q1] y y' i Hi _ Hs. split; [exact I|]. cbn [fst snd].
        destruct (sha256_round_ok fl1 l off1 q1 y y' i s hi Hs ltac:(lia)) as (q' & Q). exists ((true, snd fl1), q'). exact Q. }
      exists fl3, (sha256_more q3 (sha256_idx (N.of_nat 8) (N.of_nat 64))). split; [repeat eexists|]. intros K. unfold sha256_inner. wst.
      etransitivity; [apply C1|]. repeat wst. rewrite den_for.
      eapply do_assign; [reflexivity|eapply as_u; [bypair|apply tu_byte; lia|bypair]|].
      etransitivity; [apply C2|]. repeat wst. cbn [fst snd]. rewrite den_for.
      eapply do_assign; [reflexivity|eapply as_u; [bypair|apply tu_byte; lia|bypair]|].
      etransitivity; [apply C3|]. repeat wst. cbn [fst snd].
      eapply add_for with (w := 32) (r := R32) (Lc := fun i => sha256_locals fl3 l0 l off1 (sha256_more q3 (sha256_idx (N.of_nat i) (N.of_nat 64)))); first [eassumption | reflexivity | lia].
  Qed.
End Sha256.
