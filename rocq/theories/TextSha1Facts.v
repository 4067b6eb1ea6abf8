(* The text of the block processing of SHA-1. *)
From Coq Require Import Arith NArith ZArith List Lia Bool String.
From Verif Require Import Words Tables Machine Transform Context Hash CText TextSha1.
From Verif Require Import Spec Vocab MachineFacts TextFacts TextLoops TextMd5Facts.
Import ListNotations.
Open Scope string_scope.
Open Scope list_scope.
Open Scope N_scope.

Lemma small_all : forall l, forallb (fun i => Nat.ltb i 256) l = true -> forall i, In i l -> (i < 256)%nat.
Proof. intros l H i Hi. rewrite forallb_forall in H. apply Nat.ltb_lt. now apply H. Qed.

Section Sha1.
  Variables (E : env) (P : program) (call : string -> list val -> M (val * list (option val))) (fuel : nat) (A : Type).
  Notation dn := (@den E P call fuel A).
  Hypothesis Hlay : layout_of P SHA1 = Some layout_sha1.
  Variables (p : nat) (v er : val) (size : N).

  Definition sha1_locals (fl : bool * bool) (hv vals : list N) (off : N) (more : locals) : locals :=
    [("internal_context", VCtx SHA1 p); ("buffer", v); ("size", VU RSz size); ("error", er);
     ("hash_values", VArr R32 hv (fst fl)); ("values_32bit", VArr R32 vals (snd fl)); ("buffer_offset", VU RSz off)] ++ more.

  Definition sha1_ext (ie : expr) : stmt := libhmac_sha1_context_transform_extend_32bit_value (EVar "values_32bit") ie.

  Lemma sha1_ext_text : libhmac_sha1_context_transform_unfolded_extend_32bit_values (EVar "values_32bit") =
    each (fun i => sha1_ext (ei i)) sha1_unfolded_extend.
  Proof. reflexivity. Qed.

  Lemma sha1_ext_ok : forall ie kv i hv off more fl vals vals' s (K : flow -> locals -> M A) R,
    (forall fl ws, eval E P call ie (sha1_locals fl hv ws off more) s = Done (kv, sha1_locals fl hv ws off more) s) ->
    promote kv = VS R32 (Z.of_nat i) -> amount kv = Some (N.of_nat i) -> (i < 256)%nat ->
    sha1_extend vals i = Some vals' -> K FNext (sha1_locals (fst fl, true) hv vals' off more) s = R ->
    dn (sha1_ext ie) (sha1_locals fl hv vals off more) K s = R.
  Proof.
    intros ie kv i hv off more fl vals vals' s K R Hie Hp Ha Hi H HK.
    unfold sha1_extend, amod, obind in H. destruct (Nat.ltb_spec i 16); [discriminate|]. opts.
    unfold sha1_ext, libhmac_sha1_context_transform_extend_32bit_value. wst.
    assert (Old : forall j y, (0 < j <= 16)%nat -> aget vals (i - j) = Some y ->
      eval E P call (EIndex (EVar "values_32bit") (EBin OSub ie (EInt (Z.of_nat j)))) (sha1_locals fl hv vals off more) s =
      Done (VU R32 y, sha1_locals fl hv vals off more) s).
    { intros j y Hj Hy. eapply w_get; [reflexivity|eapply w_index_sub; [apply Hie|exact Hp|reflexivity|lia]|apply amount_nat|exact Hy]. }
    eapply do_set; [|reflexivity|apply Hie|exact Ha|eassumption|reflexivity|].
    { eapply w_xor; [reflexivity|eapply w_xor; [reflexivity|eapply w_xor; [reflexivity| |]|]|].
      - apply (Old 3%nat); [lia|eassumption].
      - apply (Old 8%nat); [lia|eassumption].
      - apply (Old 14%nat); [lia|eassumption].
      - apply (Old 16%nat); [lia|eassumption]. }
    tk. tk.
    match goal with Q : aget ?l i = Some ?x |- _ =>
      assert (G : eval E P call (EIndex (EVar "values_32bit") ie) (sha1_locals (fst fl, true) hv l off more) s =
                  Done (VU R32 x, sha1_locals (fst fl, true) hv l off more) s) by
        (eapply w_get; [reflexivity|apply Hie|exact Ha|exact Q]);
      match goal with |- den _ ?lo _ _ = _ => change lo with (sha1_locals (fst fl, true) hv l off more) end
    end.
    eapply do_set; [|reflexivity|apply Hie|exact Ha|eassumption|reflexivity|].
    { unfold byte_stream_bit_rotate_left_32bit, rotl. eapply w_or; [reflexivity| |].
      - eapply w_shl; [reflexivity|reflexivity|exact G|wev|wnum|reflexivity].
      - eapply w_shr; [reflexivity|reflexivity|exact G|wev|wnum|reflexivity]. }
    exact HK.
  Qed.

  Definition sha1_mac (inv : nat * nat * (nat * nat * nat * nat * nat)) : stmt :=
    let '(round, vi, (i0, i1, i2, i3, i4)) := inv in
    (match round with
     | 1%nat => libhmac_sha1_context_transform_unfolded_calculate_hash_value_round1
     | 2%nat => libhmac_sha1_context_transform_unfolded_calculate_hash_value_round2
     | 3%nat => libhmac_sha1_context_transform_unfolded_calculate_hash_value_round3
     | _ => libhmac_sha1_context_transform_unfolded_calculate_hash_value_round4
     end) (EVar "values_32bit") (ei vi) (EVar "hash_values") (ei i0) (ei i1) (ei i2) (ei i3) (ei i4).

  Lemma sha1_mac_text : libhmac_sha1_context_transform_unfolded_calculate_hash_values (EVar "values_32bit") (EVar "hash_values") =
    each sha1_mac sha1_unfolded.
  Proof. reflexivity. Qed.

  Lemma sha1_mac_ok : forall fl vals off hv hv' inv s, sha1_macro vals hv inv = Some hv' ->
    exists fl', forall (K : flow -> locals -> M A),
    dn (sha1_mac inv) (sha1_locals fl hv vals off []) K s = K FNext (sha1_locals fl' hv' vals off []) s.
  Proof.
    intros fl vals off hv hv' [[round vi] [[[[i0 i1] i2] i3] i4]] s H. exists (true, snd fl). intros K.
    unfold sha1_macro, amod, obind in H. opts.
    assert (R : (round = 1 \/ round = 2 \/ round = 3 \/ round = 4)%nat).
    { destruct round as [|[|[|[|[|]]]]]; try discriminate; auto. }
    unfold sha1_locals. cbn [app].
    destruct R as [->|[->|[->| ->]]];
      match goal with Q : sha1_round_fun _ _ _ _ = Some _ |- _ => cbn [sha1_round_fun] in Q; injection Q as <- end; cbn [fst snd] in *;
      (match goal with |- den ?m _ _ _ = _ => let m' := eval hnf in m in change m with m' end;
       unfold ei; repeat wst; reflexivity).
  Qed.

  Definition sha1_more (hx hi vi : N) : locals :=
    [("hash_value", VU R32 hx); ("hash_values_index", VU R8 hi); ("value_32bit_index", VU R8 vi)].

  Definition sha1_first : stmt :=
    SIf (EBin OLt (EVar "value_32bit_index") (EInt 20)) (
      SOp OAdd (EIndex (EVar "hash_values") (EInt 4)) (EBin OOr (EBin OAnd (EIndex (EVar "hash_values") (EInt 1)) (EIndex (EVar "hash_values") (EInt 2))) (EBin OAnd (ENot (EIndex (EVar "hash_values") (EInt 1))) (EIndex (EVar "hash_values") (EInt 3)))) ;-
      SOp OAdd (EIndex (EVar "hash_values") (EInt 4)) (ELong 1518500249))
    (
      SIf (EBin OLt (EVar "value_32bit_index") (EInt 40)) (
        SOp OAdd (EIndex (EVar "hash_values") (EInt 4)) (EBin OXor (EBin OXor (EIndex (EVar "hash_values") (EInt 1)) (EIndex (EVar "hash_values") (EInt 2))) (EIndex (EVar "hash_values") (EInt 3))) ;-
        SOp OAdd (EIndex (EVar "hash_values") (EInt 4)) (ELong 1859775393))
      (
        SIf (EBin OLt (EVar "value_32bit_index") (EInt 60)) (
          SOp OAdd (EIndex (EVar "hash_values") (EInt 4)) (EBin OOr (EBin OOr (EBin OAnd (EIndex (EVar "hash_values") (EInt 1)) (EIndex (EVar "hash_values") (EInt 2))) (EBin OAnd (EIndex (EVar "hash_values") (EInt 1)) (EIndex (EVar "hash_values") (EInt 3)))) (EBin OAnd (EIndex (EVar "hash_values") (EInt 2)) (EIndex (EVar "hash_values") (EInt 3)))) ;-
          SOp OAdd (EIndex (EVar "hash_values") (EInt 4)) (ELong 2400959708))
        (
          SOp OAdd (EIndex (EVar "hash_values") (EInt 4)) (EBin OXor (EBin OXor (EIndex (EVar "hash_values") (EInt 1)) (EIndex (EVar "hash_values") (EInt 2))) (EIndex (EVar "hash_values") (EInt 3))) ;-
          SOp OAdd (EIndex (EVar "hash_values") (EInt 4)) (ELong 3395469782)))).

  Lemma sha1_first_ok : forall fl vals off hv hv1 hv' i s hx hi h1 h2 h3 fk x x' (K : flow -> locals -> M A) R,
    aget hv 1 = Some h1 -> aget hv 2 = Some h2 -> aget hv 3 = Some h3 ->
    sha1_round_fun (if Nat.ltb i 20 then 1 else if Nat.ltb i 40 then 2 else if Nat.ltb i 60 then 3 else 4)%nat h1 h2 h3 = Some fk ->
    aget hv 4 = Some x -> aset hv 4 (uadd 32 x (fst fk)) = Some hv1 -> aget hv1 4 = Some x' -> aset hv1 4 (uadd 32 x' (snd fk)) = Some hv' ->
    K FNext (sha1_locals (true, snd fl) hv' vals off (sha1_more hx hi (N.of_nat i))) s = R ->
    dn sha1_first (sha1_locals fl hv vals off (sha1_more hx hi (N.of_nat i))) K s = R.
  Proof.
    intros fl vals off hv hv1 hv' i s hx hi h1 h2 h3 fk x x' K R H1 H2 H3 Hf Hx Hs Hx' Hs' HK. unfold sha1_locals, sha1_more in *. cbn [app fst snd] in *.
    unfold sha1_first.
    destruct (Nat.ltb i 20) eqn:C1; [|destruct (Nat.ltb i 40) eqn:C2; [|destruct (Nat.ltb i 60) eqn:C3]];
      cbn [sha1_round_fun] in Hf; injection Hf as <-; cbn [fst snd] in *.
    - eapply do_then; [apply (w_counter_lt E P call _ _ _ i 20); bypair|exact C1|]. repeat wst. exact HK.
    - eapply do_else; [apply (w_counter_lt E P call _ _ _ i 20); bypair|exact C1|].
      eapply do_then; [apply (w_counter_lt E P call _ _ _ i 40); bypair|exact C2|]. repeat wst. exact HK.
    - eapply do_else; [apply (w_counter_lt E P call _ _ _ i 20); bypair|exact C1|].
      eapply do_else; [apply (w_counter_lt E P call _ _ _ i 40); bypair|exact C2|].
      eapply do_then; [apply (w_counter_lt E P call _ _ _ i 60); bypair|exact C3|]. repeat wst. exact HK.
    - eapply do_else; [apply (w_counter_lt E P call _ _ _ i 20); bypair|exact C1|].
      eapply do_else; [apply (w_counter_lt E P call _ _ _ i 40); bypair|exact C2|].
      eapply do_else; [apply (w_counter_lt E P call _ _ _ i 60); bypair|exact C3|]. repeat wst. exact HK.
  Qed.

  Definition sha1_round : stmt :=
    sha1_first ;-
    SOp OAdd (EIndex (EVar "hash_values") (EInt 4)) (byte_stream_bit_rotate_left_32bit (EIndex (EVar "hash_values") (EInt 0)) (EInt 5)) ;-
    SOp OAdd (EIndex (EVar "hash_values") (EInt 4)) (EIndex (EVar "values_32bit") (EVar "value_32bit_index")) ;-
    SAssign (EVar "hash_value") (EIndex (EVar "hash_values") (EInt 4)) ;-
    SAssign (EIndex (EVar "hash_values") (EInt 4)) (EIndex (EVar "hash_values") (EInt 3)) ;-
    SAssign (EIndex (EVar "hash_values") (EInt 3)) (EIndex (EVar "hash_values") (EInt 2)) ;-
    SAssign (EIndex (EVar "hash_values") (EInt 2)) (byte_stream_bit_rotate_left_32bit (EIndex (EVar "hash_values") (EInt 1)) (EInt 30)) ;-
    SAssign (EIndex (EVar "hash_values") (EInt 1)) (EIndex (EVar "hash_values") (EInt 0)) ;-
    SAssign (EIndex (EVar "hash_values") (EInt 0)) (EVar "hash_value").

  Lemma sha1_round_ok : forall fl vals off hv hv' i s hx hi, sha1_loop_step vals hv i = Some hv' -> (i < 80)%nat ->
    exists hx', forall (K : flow -> locals -> M A),
    dn (SSeq sha1_round (SOp OAdd (EVar "value_32bit_index") (EInt 1))) (sha1_locals fl hv vals off (sha1_more hx hi (N.of_nat i))) K s =
    K FNext (sha1_locals (true, snd fl) hv' vals off (sha1_more hx' hi (N.of_nat (S i)))) s.
  Proof.
    intros fl vals off hv hv' i s hx hi H Hi.
    unfold sha1_loop_step, amod, obind in H. opts.
    eexists. intros K. unfold sha1_round. wst. wst. eapply sha1_first_ok; try eassumption.
    unfold sha1_locals, sha1_more. cbn [app fst snd]. repeat wst.
    eapply do_inc; [bypair|lia|bypair|]. reflexivity.
  Qed.

  Definition sha1_inner (u : bool) : stmt :=
    if u then
      libhmac_byte_stream_copy_to_16x_uint32_big_endian here (EVar "values_32bit") ;-
      SOp OAdd (EVar "buffer_offset") (EInt 64) ;-
      libhmac_sha1_context_transform_unfolded_extend_32bit_values (EVar "values_32bit") ;-
      libhmac_sha1_context_transform_unfolded_calculate_hash_values (EVar "values_32bit") (EVar "hash_values") ;-
      each (fun i => add_text (ei i)) (seq 0 5)
    else
      SFor (SAssign (EVar "value_32bit_index") (EInt 0)) (EBin OLt (EVar "value_32bit_index") (EInt 16)) (SOp OAdd (EVar "value_32bit_index") (EInt 1))
        (copy_text (EIndex (EVar "values_32bit") (EVar "value_32bit_index")) (map (fun n => EIndex here (EInt (Z.of_N n))) order_be32) ;-
         SOp OAdd (EVar "buffer_offset") (ESize (32 / 8))) ;-
      SFor (SAssign (EVar "value_32bit_index") (EInt 16)) (EBin OLt (EVar "value_32bit_index") (EInt (Z.of_nat 80))) (SOp OAdd (EVar "value_32bit_index") (EInt 1))
        (sha1_ext (EVar "value_32bit_index")) ;-
      SFor (SAssign (EVar "value_32bit_index") (EInt 0)) (EBin OLt (EVar "value_32bit_index") (EInt (Z.of_nat 80))) (SOp OAdd (EVar "value_32bit_index") (EInt 1)) sha1_round ;-
      SFor (SAssign (EVar "hash_values_index") (EInt 0)) (EBin OLt (EVar "hash_values_index") (EInt (Z.of_nat 5))) (SOp OAdd (EVar "hash_values_index") (EInt 1))
        (add_text (EVar "hash_values_index")).

  Definition sha1_ok (u : bool) (more : locals) : Prop :=
    if u then more = [] else exists hx hi vi, more = sha1_more hx hi vi.

  Hypothesis Hva : is_arr v = false.
  Hypothesis Hfuel : (100 <= fuel)%nat.

  Lemma sha1_inner_ok : forall u fl vals off more s c buf off' h' hv' vals', sha1_ok u more ->
    get_obj s p = Some (OCtx SHA1 c) -> readable P s v buf -> Forall is_byte buf -> off + 64 < size_mod E ->
    sha1_block u buf off (c_hash c) vals = Some (off', h', hv', vals') ->
    exists fl' more', sha1_ok u more' /\ forall (K : flow -> locals -> M A),
      dn (sha1_inner u) (sha1_locals fl (c_hash c) vals off more) K s =
      K FNext (sha1_locals fl' hv' vals' off' more') (with_hash SHA1 p c s h').
  Proof.
    intros u fl vals off more s c buf off' h' hv' vals' Hm Hp Hr Hby Hoff H. unfold sha1_block in H. destruct u; cbn [sha1_ok] in Hm.
    - subst more. unfold obind in H. opts. injection H as <- <- <- <-.
      destruct (copy16_each E P call fuel A "values_32bit" R32 32 2 order_be32 s v buf eq_refl eq_refl ltac:(lia) ltac:(discriminate) ltac:(discriminate)
        Hva Hr Hby ltac:(repeat constructor) ltac:(lia) eq_refl (fun f ws => sha1_locals (fst fl, f) (c_hash c) ws off []) copy_16x_uint32_big off vals l (snd fl))
        as (f1 & C1); try reflexivity; try assumption; [repeat constructor; lia|].
      destruct (each_fold E P call fuel A (bool * bool) (list N) _ (fun i => sha1_ext (ei i)) sha1_extend (fun fl ws => sha1_locals fl (c_hash c) ws (off + 64) []) (fun _ => s)
        sha1_unfolded_extend l l0 (fst fl, f1)) as (fl2 & C2); [|assumption|].
      { intros u y y' i Hi Hs. exists (fst u, true). intros K. eapply sha1_ext_ok; [intros; reflexivity|reflexivity|apply amount_nat| |exact Hs|reflexivity].
        now apply (small_all sha1_unfolded_extend eq_refl). }
      destruct (each_fold E P call fuel A (bool * bool) (list N) _ sha1_mac (sha1_macro l0) (fun fl hv => sha1_locals fl hv l0 (off + 64) []) (fun _ => s)
        sha1_unfolded (c_hash c) l1 fl2) as (fl3 & C3); [|assumption|].
      { intros u y y' i _ Hs. now apply sha1_mac_ok. }
      exists fl3, []. split; [reflexivity|]. intros K. unfold sha1_inner. wst. rewrite <- surjective_pairing in C1.
      etransitivity; [apply C1|]. repeat wst.
      eapply do_op; [eapply ev_var; [bypair|reflexivity]|reflexivity
        |eapply bin_us; [reflexivity|reflexivity|discriminate|discriminate|tunum|reflexivity]|eapply as_u; [bypair|apply tu_same|bypair]|].
      repeat wst.
      assert (uadd (bits E RSz) off 64 = off + 64) as -> by (unfold uadd; rewrite bits_size_mod; now apply N.mod_small).
      rewrite sha1_ext_text. etransitivity; [apply C2|]. repeat wst.
      rewrite sha1_mac_text. etransitivity; [apply C3|]. repeat wst.
      eapply add_each with (w := 32) (r := R32); first [eassumption | reflexivity].
    - destruct Hm as (hx & hi & vi & ->). unfold obind in H. destruct (copy_loop 32 order_be32 buf off vals) as [[off1 vals1]|] eqn:Hc; [|discriminate].
      opts. injection H as <- <- <- <-.
      destruct (copy16_for E P call fuel A "values_32bit" "value_32bit_index" R32 32 2 order_be32 s v buf eq_refl eq_refl ltac:(lia) ltac:(discriminate) ltac:(discriminate)
        ltac:(discriminate) Hva Hr Hby eq_refl (fun f ws i => sha1_locals (fst fl, f) (c_hash c) (snd ws) (fst ws) (sha1_more hx hi (N.of_nat i)))
        off vals off1 vals1 (snd fl) (sha1_locals fl (c_hash c) vals off (sha1_more hx hi vi)) vi) as (f1 & C1); try reflexivity; try assumption; try lia.
      destruct (for_fold E P call fuel A (bool * bool) (list N) (fun _ _ => True) sha1_extend
        (fun u ws i => sha1_locals u (c_hash c) ws off1 (sha1_more hx hi (N.of_nat i))) (fun _ => s)
        (EBin OLt (EVar "value_32bit_index") (EInt (Z.of_nat 80))) (sha1_ext (EVar "value_32bit_index")) (SOp OAdd (EVar "value_32bit_index") (EInt 1)) 64 16 fuel vals1 l
        (fst fl, f1)) as (fl2 & C2); [|exact I| |assumption|lia|].
      { intros. apply (w_counter_lt E P call _ _ _ i 80). reflexivity. }
      { intros u y y' i Hi _ Hs. split; [exact I|]. exists (fst u, true). intros K. wst.
        eapply sha1_ext_ok; [intros; eapply ev_var; [bypair|reflexivity]|apply promote_counter|apply amount_u|lia|exact Hs|]. tk. tk.
        eapply do_inc; [bypair|lia|bypair|reflexivity]. }
      destruct (for_fold E P call fuel A (bool * bool * N) (list N) (fun _ _ => True) (sha1_loop_step l)
        (fun u hv i => sha1_locals (fst u) hv l off1 (sha1_more (snd u) hi (N.of_nat i))) (fun _ => s)
        (EBin OLt (EVar "value_32bit_index") (EInt (Z.of_nat 80))) sha1_round (SOp OAdd (EVar "value_32bit_index") (EInt 1)) 80 0 fuel (c_hash c) l0
        (fl2, hx)) as ([fl3 hx3] & C3); [|exact I| |assumption|lia|].
      { intros. apply w_counter_lt. reflexivity. }
      { intros [fl1 hx1] y y' i Hi _ Hs. split; [exact I|]. cbn [fst snd].
        destruct (sha1_round_ok fl1 l off1 y y' i s hx1 hi Hs ltac:(lia)) as (hx' & Q). exists ((true, snd fl1), hx'). exact Q. }
      exists fl3, (sha1_more hx3 (N.of_nat 5) (N.of_nat 80)). split; [repeat eexists|]. intros K. unfold sha1_inner. wst.
      etransitivity; [apply C1|]. repeat wst. rewrite den_for.
      eapply do_assign; [reflexivity|eapply as_u; [bypair|apply tu_byte; lia|bypair]|].
      etransitivity; [apply C2|]. repeat wst. cbn [fst snd]. rewrite den_for.
      eapply do_assign; [reflexivity|eapply as_u; [bypair|apply tu_byte; lia|bypair]|].
      etransitivity; [apply C3|]. repeat wst. cbn [fst snd].
      eapply add_for with (w := 32) (r := R32) (Lc := fun i => sha1_locals fl3 l0 l off1 (sha1_more hx3 (N.of_nat i) (N.of_nat 80))); first [eassumption | reflexivity | lia].
  Qed.
End Sha1.
