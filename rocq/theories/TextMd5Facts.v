(* The text of the block processing of MD5. *)
From Coq Require Import Arith NArith ZArith List Lia Bool String.
From Verif Require Import Words Tables Machine Transform Context Hash CText TextMd5.
From Verif Require Import Spec Vocab MachineFacts TextFacts TextLoops.
Import ListNotations.
Open Scope string_scope.
Open Scope list_scope.
Open Scope N_scope.

Lemma md5_shift_range : forall i n, aget md5_bit_shifts i = Some n -> 0 < N.of_nat n < 32.
Proof.
  intros i n H. assert (F : Forall (fun n => 0 < N.of_nat n < 32) md5_bit_shifts) by (repeat constructor; reflexivity).
  rewrite Forall_forall in F. eapply F, nth_error_In. exact H.
Qed.

Section Md5.
  Variables (E : env) (P : program) (call : string -> list val -> M (val * list (option val))) (fuel : nat) (A : Type).
  Notation dn := (@den E P call fuel A).
  Hypothesis Hsines : find_assoc (p_tables P) "libhmac_md5_context_sines" = Some (R32, md5_sines).
  Hypothesis Hshifts : find_assoc (p_tables P) "libhmac_md5_context_bit_shifts" = Some (R8, map N.of_nat md5_bit_shifts).
  Hypothesis Hindex : find_assoc (p_tables P) "libhmac_md5_context_values_32bit_index" = Some (R8, map N.of_nat md5_values_32bit_index).
  Hypothesis Hlay : layout_of P MD5 = Some layout_md5.
  Variables (p : nat) (v er : val) (size : N).

  Definition md5_locals (fl : bool * bool) (hv vals : list N) (off : N) (more : locals) : locals :=
    [("internal_context", VCtx MD5 p); ("buffer", v); ("size", VU RSz size); ("error", er);
     ("hash_values", VArr R32 hv (fst fl)); ("values_32bit", VArr R32 vals (snd fl)); ("buffer_offset", VU RSz off)] ++ more.

  Definition ei (i : nat) : expr := EInt (Z.of_nat i).

  Definition md5_mac (inv : nat * nat * (nat * nat * nat * nat) * nat) : stmt :=
    let '(round, vi, (i0, i1, i2, i3), bi) := inv in
    (match round with
     | 1%nat => libhmac_md5_context_transform_unfolded_calculate_hash_value_round1
     | 2%nat => libhmac_md5_context_transform_unfolded_calculate_hash_value_round2
     | 3%nat => libhmac_md5_context_transform_unfolded_calculate_hash_value_round3
     | _ => libhmac_md5_context_transform_unfolded_calculate_hash_value_round4
     end) (EVar "values_32bit") (ei vi) (EVar "hash_values") (ei i0) (ei i1) (ei i2) (ei i3) (ei bi).

  Lemma md5_mac_text : libhmac_md5_context_transform_unfolded_calculate_hash_values (EVar "values_32bit") (EVar "hash_values") =
    each md5_mac md5_unfolded.
  Proof. reflexivity. Qed.

  Lemma md5_mac_ok : forall fl vals off hv hv' inv s, md5_macro vals hv inv = Some hv' ->
    exists fl', forall (K : flow -> locals -> M A),
    dn (md5_mac inv) (md5_locals fl hv vals off []) K s = K FNext (md5_locals fl' hv' vals off []) s.
  Proof.
    intros fl vals off hv hv' [[[round vi] [[[i0 i1] i2] i3]] bi] s H. exists (true, snd fl). intros K.
    unfold md5_macro, amod, obind in H. opts.
    match goal with Q : aget md5_bit_shifts _ = Some ?n |- _ =>
      pose proof (md5_shift_range _ _ Q); apply (map_nth_error N.of_nat) in Q; change (aget (map N.of_nat md5_bit_shifts) bi = Some (N.of_nat n)) in Q
    end.
    assert (R : (round = 1 \/ round = 2 \/ round = 3 \/ round = 4)%nat).
    { destruct round as [|[|[|[|[|]]]]]; try discriminate; auto. }
    unfold md5_locals. cbn [app].
    destruct R as [->|[->|[->| ->]]];
      match goal with Q : md5_round_fun _ _ _ _ = Some _ |- _ => cbn [md5_round_fun] in Q; injection Q as <- end;
      (match goal with |- den ?m _ _ _ = _ => let m' := eval hnf in m in change m with m' end;
       unfold ei; repeat wst;
       eapply do_set; [eapply w_rotl8; [wev|wev|assumption]|bypair|wev|wamt|eassumption|bypair|]; repeat wst; reflexivity).
  Qed.

  Definition md5_more (hx bi hi vi : N) : locals :=
    [("hash_value", VU R32 hx); ("block_index", VU R8 bi); ("hash_values_index", VU R8 hi); ("value_32bit_index", VU R8 vi)].

  Definition md5_first : stmt :=
    SIf (EBin OLt (EVar "block_index") (EInt 16)) (
      SOp OAdd (EIndex (EVar "hash_values") (EInt 0)) (EBin OOr (EBin OAnd (EIndex (EVar "hash_values") (EInt 1)) (EIndex (EVar "hash_values") (EInt 2))) (EBin OAnd (ENot (EIndex (EVar "hash_values") (EInt 1))) (EIndex (EVar "hash_values") (EInt 3)))))
    (
      SIf (EBin OLt (EVar "block_index") (EInt 32)) (
        SOp OAdd (EIndex (EVar "hash_values") (EInt 0)) (EBin OOr (EBin OAnd (EIndex (EVar "hash_values") (EInt 1)) (EIndex (EVar "hash_values") (EInt 3))) (EBin OAnd (EIndex (EVar "hash_values") (EInt 2)) (ENot (EIndex (EVar "hash_values") (EInt 3))))))
      (
        SIf (EBin OLt (EVar "block_index") (EInt 48)) (
          SOp OAdd (EIndex (EVar "hash_values") (EInt 0)) (EBin OXor (EBin OXor (EIndex (EVar "hash_values") (EInt 1)) (EIndex (EVar "hash_values") (EInt 2))) (EIndex (EVar "hash_values") (EInt 3))))
        (
          SOp OAdd (EIndex (EVar "hash_values") (EInt 0)) (EBin OXor (EIndex (EVar "hash_values") (EInt 2)) (EBin OOr (EIndex (EVar "hash_values") (EInt 1)) (ENot (EIndex (EVar "hash_values") (EInt 3)))))))).

  Lemma md5_first_ok : forall fl vals off hv hv' i s hx hi vi h1 h2 h3 f x (K : flow -> locals -> M A) R,
    aget hv 1 = Some h1 -> aget hv 2 = Some h2 -> aget hv 3 = Some h3 ->
    md5_round_fun (if Nat.ltb i 16 then 1 else if Nat.ltb i 32 then 2 else if Nat.ltb i 48 then 3 else 4)%nat h1 h2 h3 = Some f ->
    aget hv 0 = Some x -> aset hv 0 (uadd 32 x f) = Some hv' ->
    K FNext (md5_locals (true, snd fl) hv' vals off (md5_more hx (N.of_nat i) hi vi)) s = R ->
    dn md5_first (md5_locals fl hv vals off (md5_more hx (N.of_nat i) hi vi)) K s = R.
  Proof.
    intros fl vals off hv hv' i s hx hi vi h1 h2 h3 f x K R H1 H2 H3 Hf Hx Hs HK. unfold md5_locals, md5_more in *. cbn [app fst snd] in *.
    unfold md5_first.
    destruct (Nat.ltb i 16) eqn:C1; [|destruct (Nat.ltb i 32) eqn:C2; [|destruct (Nat.ltb i 48) eqn:C3]];
      cbn [md5_round_fun] in Hf; injection Hf as <-.
    - eapply do_then; [apply (w_counter_lt E P call _ _ _ i 16); bypair|exact C1|]. wst. exact HK.
    - eapply do_else; [apply (w_counter_lt E P call _ _ _ i 16); bypair|exact C1|].
      eapply do_then; [apply (w_counter_lt E P call _ _ _ i 32); bypair|exact C2|]. wst. exact HK.
    - eapply do_else; [apply (w_counter_lt E P call _ _ _ i 16); bypair|exact C1|].
      eapply do_else; [apply (w_counter_lt E P call _ _ _ i 32); bypair|exact C2|].
      eapply do_then; [apply (w_counter_lt E P call _ _ _ i 48); bypair|exact C3|]. wst. exact HK.
    - eapply do_else; [apply (w_counter_lt E P call _ _ _ i 16); bypair|exact C1|].
      eapply do_else; [apply (w_counter_lt E P call _ _ _ i 32); bypair|exact C2|].
      eapply do_else; [apply (w_counter_lt E P call _ _ _ i 48); bypair|exact C3|]. wst. exact HK.
  Qed.

  Definition md5_round : stmt :=
    md5_first ;-
    SAssign (EVar "value_32bit_index") (EIndex (EVar "libhmac_md5_context_values_32bit_index") (EVar "block_index")) ;-
    SOp OAdd (EIndex (EVar "hash_values") (EInt 0)) (EIndex (EVar "values_32bit") (EVar "value_32bit_index")) ;-
    SOp OAdd (EIndex (EVar "hash_values") (EInt 0)) (EIndex (EVar "libhmac_md5_context_sines") (EVar "block_index")) ;-
    SAssign (EIndex (EVar "hash_values") (EInt 0)) (byte_stream_bit_rotate_left_32bit (EIndex (EVar "hash_values") (EInt 0)) (EIndex (EVar "libhmac_md5_context_bit_shifts") (EVar "block_index"))) ;-
    SAssign (EVar "hash_value") (EIndex (EVar "hash_values") (EInt 3)) ;-
    SAssign (EIndex (EVar "hash_values") (EInt 3)) (EIndex (EVar "hash_values") (EInt 2)) ;-
    SAssign (EIndex (EVar "hash_values") (EInt 2)) (EIndex (EVar "hash_values") (EInt 1)) ;-
    SOp OAdd (EIndex (EVar "hash_values") (EInt 1)) (EIndex (EVar "hash_values") (EInt 0)) ;-
    SAssign (EIndex (EVar "hash_values") (EInt 0)) (EVar "hash_value").

  Lemma md5_round_ok : forall fl vals off hv hv' i s hx hi vi, md5_loop_step vals hv i = Some hv' -> (i < 64)%nat ->
    exists hx' vi', forall (K : flow -> locals -> M A),
    dn (SSeq md5_round (SOp OAdd (EVar "block_index") (EInt 1))) (md5_locals fl hv vals off (md5_more hx (N.of_nat i) hi vi)) K s =
    K FNext (md5_locals (true, snd fl) hv' vals off (md5_more hx' (N.of_nat (S i)) hi vi')) s.
  Proof.
    intros fl vals off hv hv' i s hx hi vi H Hi.
    unfold md5_loop_step, amod, obind in H. opts.
    match goal with Q : aget md5_bit_shifts _ = Some ?n |- _ =>
      pose proof (md5_shift_range _ _ Q); apply (map_nth_error N.of_nat) in Q; change (aget (map N.of_nat md5_bit_shifts) i = Some (N.of_nat n)) in Q
    end.
    match goal with Q : aget md5_values_32bit_index _ = Some ?n |- _ =>
      apply (map_nth_error N.of_nat) in Q; change (aget (map N.of_nat md5_values_32bit_index) i = Some (N.of_nat n)) in Q
    end.
    eexists. eexists. intros K. unfold md5_round. wst. wst. eapply md5_first_ok; try eassumption.
    unfold md5_locals, md5_more. cbn [app fst snd]. repeat wst.
    eapply do_set; [eapply w_rotl8; [wev|wev|assumption]|bypair|wev|wamt|eassumption|bypair|].
    repeat wst. eapply do_inc; [bypair|lia|bypair|]. reflexivity.
  Qed.

  Definition md5_inner (u : bool) : stmt :=
    if u then
      libhmac_byte_stream_copy_to_16x_uint32_little_endian here (EVar "values_32bit") ;-
      SOp OAdd (EVar "buffer_offset") (EInt 64) ;-
      libhmac_md5_context_transform_unfolded_calculate_hash_values (EVar "values_32bit") (EVar "hash_values") ;-
      each (fun i => add_text (ei i)) (seq 0 4)
    else
      SFor (SAssign (EVar "value_32bit_index") (EInt 0)) (EBin OLt (EVar "value_32bit_index") (EInt 16)) (SOp OAdd (EVar "value_32bit_index") (EInt 1))
        (copy_text (EIndex (EVar "values_32bit") (EVar "value_32bit_index")) (map (fun n => EIndex here (EInt (Z.of_N n))) order_le32) ;-
         SOp OAdd (EVar "buffer_offset") (ESize (32 / 8))) ;-
      SFor (SAssign (EVar "block_index") (EInt 0)) (EBin OLt (EVar "block_index") (EInt (Z.of_nat 64))) (SOp OAdd (EVar "block_index") (EInt 1)) md5_round ;-
      SFor (SAssign (EVar "hash_values_index") (EInt 0)) (EBin OLt (EVar "hash_values_index") (EInt (Z.of_nat 4))) (SOp OAdd (EVar "hash_values_index") (EInt 1))
        (add_text (EVar "hash_values_index")).

  Definition md5_ok (u : bool) (more : locals) : Prop :=
    if u then more = [] else exists hx bi hi vi, more = md5_more hx bi hi vi.

  Hypothesis Hva : is_arr v = false.
  Hypothesis Hfuel : (100 <= fuel)%nat.

  Lemma md5_inner_ok : forall u fl vals off more s c buf off' h' hv' vals', md5_ok u more ->
    get_obj s p = Some (OCtx MD5 c) -> readable P s v buf -> Forall is_byte buf -> off + 64 < size_mod E ->
    md5_block u buf off (c_hash c) vals = Some (off', h', hv', vals') ->
    exists fl' more', md5_ok u more' /\ forall (K : flow -> locals -> M A),
      dn (md5_inner u) (md5_locals fl (c_hash c) vals off more) K s =
      K FNext (md5_locals fl' hv' vals' off' more') (with_hash MD5 p c s h').
  Proof.
    intros u fl vals off more s c buf off' h' hv' vals' Hm Hp Hr Hby Hoff H. unfold md5_block in H. destruct u; cbn [md5_ok] in Hm.
    - subst more. unfold obind in H. opts. injection H as <- <- <- <-.
      destruct (copy16_each E P call fuel A "values_32bit" R32 32 2 order_le32 s v buf eq_refl eq_refl ltac:(lia) ltac:(discriminate) ltac:(discriminate)
        Hva Hr Hby ltac:(repeat constructor) ltac:(lia) eq_refl (fun f ws => md5_locals (fst fl, f) (c_hash c) ws off []) copy_16x_uint32_little off vals l (snd fl))
        as (f1 & C1); try reflexivity; try assumption; [repeat constructor; lia|].
      destruct (each_fold E P call fuel A (bool * bool) (list N) _ md5_mac (md5_macro l) (fun fl hv => md5_locals fl hv l (off + 64) []) (fun _ => s)
        md5_unfolded (c_hash c) l0 (fst fl, f1)) as (fl2 & C2); [|assumption|].
      { intros u y y' i _ Hs. now apply md5_mac_ok. }
      exists fl2, []. split; [reflexivity|]. intros K. unfold md5_inner. wst. rewrite <- surjective_pairing in C1.
      etransitivity; [apply C1|]. repeat wst.
      eapply do_op; [eapply ev_var; [bypair|reflexivity]|reflexivity
        |eapply bin_us; [reflexivity|reflexivity|discriminate|discriminate|tunum|reflexivity]|eapply as_u; [bypair|apply tu_same|bypair]|].
      repeat wst.
      assert (uadd (bits E RSz) off 64 = off + 64) as -> by (unfold uadd; rewrite bits_size_mod; now apply N.mod_small).
      rewrite md5_mac_text. etransitivity; [apply C2|]. repeat wst.
      eapply add_each with (w := 32) (r := R32); first [eassumption | reflexivity].
    - destruct Hm as (hx & bi & hi & vi & ->). unfold obind in H. destruct (copy_loop 32 order_le32 buf off vals) as [[off1 vals1]|] eqn:Hc; [|discriminate].
      opts. injection H as <- <- <- <-.
      destruct (copy16_for E P call fuel A "values_32bit" "value_32bit_index" R32 32 2 order_le32 s v buf eq_refl eq_refl ltac:(lia) ltac:(discriminate) ltac:(discriminate)
        ltac:(discriminate) Hva Hr Hby eq_refl (fun f ws i => md5_locals (fst fl, f) (c_hash c) (snd ws) (fst ws) (md5_more hx bi hi (N.of_nat i)))
        off vals off1 vals1 (snd fl) (md5_locals fl (c_hash c) vals off (md5_more hx bi hi vi)) vi) as (f1 & C1); try reflexivity; try assumption; try lia.

      destruct (for_fold E P call fuel A (bool * bool * N * N) (list N) (fun _ _ => True) (md5_loop_step vals1)
        (fun u hv i => md5_locals (fst (fst u)) hv vals1 off1 (md5_more (snd (fst u)) (N.of_nat i) hi (snd u))) (fun _ => s)
        (EBin OLt (EVar "block_index") (EInt (Z.of_nat 64))) md5_round (SOp OAdd (EVar "block_index") (EInt 1)) 64 0 fuel (c_hash c) l
        ((fst fl, f1), hx, N.of_nat 16)) as ([[fl2 hx2] vi2] & C2); [|exact I| |assumption|lia|].
      { intros. apply w_counter_lt. reflexivity. }
      { intros [[fl1 hx1] vi1] y y' i Hi _ Hs. split; [exact I|]. cbn [fst snd].
        destruct (md5_round_ok fl1 vals1 off1 y y' i s hx1 hi vi1 Hs ltac:(lia)) as (hx' & vi' & Q). exists ((true, snd fl1), hx', vi'). exact Q. }
      exists fl2, (md5_more hx2 (N.of_nat 64) (N.of_nat 4) vi2). split; [repeat eexists|]. intros K. unfold md5_inner. wst.
      etransitivity; [apply C1|]. repeat wst. rewrite den_for.
      eapply do_assign; [reflexivity|eapply as_u; [bypair|apply tu_byte; lia|bypair]|].
      etransitivity; [apply C2|]. repeat wst. cbn [fst snd].
      eapply add_for with (w := 32) (r := R32) (Lc := fun i => md5_locals fl2 l vals1 off1 (md5_more hx2 (N.of_nat 64) (N.of_nat i) vi2)); first [eassumption | reflexivity | lia].
  Qed.
End Md5.
