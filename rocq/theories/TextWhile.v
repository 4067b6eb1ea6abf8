(* The loop over the blocks in the text of libhmac_X_context_transform. *)
From Coq Require Import Arith NArith ZArith List Lia Bool String.
From Verif Require Import Words Spec Machine Transform Context Hash CText.
From Verif Require Import Vocab WordFacts MachineFacts TransformFacts TextFacts TextLoops.
Import ListNotations.
Open Scope string_scope.
Open Scope list_scope.
Open Scope N_scope.

Lemma splice_all : forall (l x : list N), List.length l = List.length x -> splice l 0 x = Some x.
Proof.
  intros l x H. unfold splice. rewrite N.add_0_l, H, N.leb_refl. change (N.to_nat 0) with O. rewrite Nat.add_0_l, <- H, skipn_all.
  cbn [firstn app]. now rewrite app_nil_r.
Qed.

Lemma ext_copy_words : forall E P x a p l s n r old f y k ws c l',
  lget l x = Some (VArr r old f) -> layout_of P a = Some y -> l_rank y = r -> word_count E r n = Some k ->
  load_ctx a p s = Done c s -> take k (c_hash c) = Some ws -> List.length old = List.length ws ->
  lset l x (VArr r ws true) = Some l' ->
  external E P "memory_copy" [VLoc x 0; VWords a p 0; VU RSz n] l s = Done (VLoc x 0, l') s.
Proof.
  intros E P x a p l s n r old f y k ws c l' H1 H2 H3 H4 H5 H6 H7 H8. unfold external. cbn [String.eqb Ascii.eqb Bool.eqb].
  cbn [words_at]. unfold bind, lift, ret. rewrite H2, H5. cbn [fst snd N.to_nat skipn]. rewrite H3, H4, H6.
  cbn [put_words]. rewrite H1. replace (rank_eqb r r) with true by (destruct r; reflexivity).
  unfold bind, lift, ret. rewrite splice_all by exact H7. rewrite H8. reflexivity.
Qed.

Lemma ext_clear_words : forall E P x l s n r old f k new l',
  lget l x = Some (VArr r old f) -> word_count E r n = Some k -> clear_first (N.to_nat k) old = Some new ->
  lset l x (VArr r new true) = Some l' ->
  external E P "memory_set" [VLoc x 0; VS R32 0; VU RSz n] l s = Done (VLoc x 0, l') s.
Proof.
  intros E P x l s n r old f k new l' H1 H2 H3 H4. unfold external. cbn [String.eqb Ascii.eqb Bool.eqb].
  unfold bind, lift, ret. cbn [word_width]. rewrite H1, H2. cbn [to_unsigned]. rewrite Z.mod_0_l by (apply Z.pow_nonzero; cbn; lia).
  cbn [Z.to_N N.eqb]. cbn [put_words]. rewrite H1. replace (rank_eqb r r) with true by (destruct r; reflexivity).
  unfold bind, lift, ret.
  assert (splice old 0 (repeat 0 (N.to_nat k)) = Some new) as ->.
  { unfold clear_first in H3. unfold splice. change (N.to_nat 0) with O. rewrite N.add_0_l, Nat.add_0_l, repeat_length.
    destruct (Nat.leb_spec (N.to_nat k) (List.length old)); [|discriminate].
    rewrite (proj2 (N.leb_le _ _)) by lia. rewrite <- H3. reflexivity. }
  rewrite H4. reflexivity.
Qed.

Section While.
  Variables (E : env) (P : program) (call : string -> list val -> M (val * list (option val))) (fuel : nat) (A : Type).
  Notation ev := (eval E P call).
  Notation dn := (@den E P call fuel A).
  Variables (a : algid) (y : layout) (p : nat) (v : val) (buf : list N) (s0 : state) (c0 : ctx).
  Variable Loc : N -> bool * bool -> list N -> list N -> N -> locals -> locals.
  Variable okm : locals -> Prop.
  Variables (inner bad : stmt) (wb : N).
  Notation r := (l_rank y).
  Notation bs := (a_bs (alg_of a)).
  Notation at_hash := (with_hash a p c0 s0).
  Hypothesis Hlay : layout_of P a = Some y.
  Hypothesis Hwc : word_count E r (wb * N.of_nat (nh a)) = Some (N.of_nat (nh a)).
  Hypothesis Hwb : wb * N.of_nat (nh a) < 2 ^ 32.
  Hypothesis Hp : get_obj s0 p = Some (OCtx a c0).
  Hypothesis Lctx : forall size fl hv vals off more, lget (Loc size fl hv vals off more) "internal_context" = Some (VCtx a p).
  Hypothesis Lsize : forall size fl hv vals off more, lget (Loc size fl hv vals off more) "size" = Some (VU RSz size).
  Hypothesis Ssize : forall size fl hv vals off more n, lset (Loc size fl hv vals off more) "size" (VU RSz n) = Some (Loc n fl hv vals off more).
  Hypothesis Lhv : forall size fl hv vals off more, lget (Loc size fl hv vals off more) "hash_values" = Some (VArr r hv (fst fl)).
  Hypothesis Shv : forall size fl hv vals off more w, lset (Loc size fl hv vals off more) "hash_values" (VArr r w true) =
    Some (Loc size (true, snd fl) w vals off more).
  Hypothesis Hby : Forall is_byte buf.
  Hypothesis Inner : forall size fl vals off more h off' h' hv' vals', okm more ->
    a_block (alg_of a) (unrolled E) buf off h vals = Some (off', h', hv', vals') -> off + bs <= ssize_max E ->
    exists fl' more', okm more' /\ forall (K : flow -> locals -> M A),
      dn inner (Loc size fl h vals off more) K (at_hash h) = K FNext (Loc size fl' hv' vals' off' more') (at_hash h').

  Definition while_body : stmt :=
    SIf (EBin OEq (ECall "memory_copy" [EVar "hash_values"; EField (EVar "internal_context") "hash_values"; EBin OMul (ESize wb) (EInt (Z.of_nat (nh a)))]) ENull) bad SSkip ;-
    inner ;-
    SOp OSub (EVar "size") (EInt (Z.of_N bs)).

  Lemma while_ok : forall k n size off more fl h hv vals off' h' hv' vals',
    okm more -> hash_ok a h -> List.length hv = nh a -> List.length vals = a_nv (alg_of a) ->
    (N.to_nat off + N.to_nat size <= List.length buf)%nat -> off + size <= ssize_max E ->
    k = N.to_nat (size / bs) -> (k <= n)%nat ->
    transform_loop E (alg_of a) k buf off size h hv vals = Some (off', h', hv', vals') ->
    exists size' fl' more', forall (K : flow -> locals -> M A),
      @dloop E P call fuel A n (EBin OGe (EVar "size") (EInt (Z.of_N bs))) while_body (Loc size fl hv vals off more) K (at_hash h) =
      K FNext (Loc size' fl' hv' vals' off' more') (at_hash h').
  Proof.
    pose proof (bs_pos a) as Bp. pose proof (bs_le a) as Bl. pose proof (size_mod_gt E) as Sm.
    assert (Tb : to_unsigned E RSz (VS R32 (Z.of_N bs)) = Some bs).
    { rewrite <- (N2Z.id bs) at 2. apply tu_int; [reflexivity|lia]. }
    assert (Cond : forall size fl hv vals off more s,
      ev (EBin OGe (EVar "size") (EInt (Z.of_N bs))) (Loc size fl hv vals off more) s =
      Done (truth (bs <=? size), Loc size fl hv vals off more) s).
    { intros. eapply ev_bin; [eapply ev_var; [apply Lsize|reflexivity]|reflexivity|].
      eapply bin_us; [reflexivity|reflexivity|discriminate|discriminate|exact Tb|reflexivity]. }
    induction k as [|k IH]; intros n size off more fl h hv vals off' h' hv' vals' Hm Hh Hl Hv Hb Hs Hk Hn Ht.
    - assert (Hq : size / bs = 0) by lia. apply N.div_small_iff in Hq; [|lia]. cbn [transform_loop] in Ht.
      rewrite (proj2 (N.ltb_lt _ _) Hq) in Ht. injection Ht as <- <- <- <-. exists size, fl, more. intros K.
      apply dloop_end. rewrite Cond. now rewrite (proj2 (N.leb_gt _ _) Hq).
    - assert (Hsz : bs <= size).
      { destruct (N.lt_ge_cases size bs) as [L|]; [|assumption]. rewrite (N.div_small _ _ L) in Hk. cbn in Hk. lia. }
      cbn [transform_loop] in Ht. rewrite (proj2 (N.ltb_ge _ _) Hsz) in Ht.
      rewrite block_ok in Ht by (try assumption; unfold bsz; lia).
      pose proof (block_ok a (unrolled E) buf off h vals Hby ltac:(unfold bsz; lia) Hh Hv) as Bo. cbn [obind] in Ht.
      destruct (Inner size (true, snd fl) vals off more h _ _ _ _ Hm Bo ltac:(lia)) as (fl1 & more1 & Hm1 & H1).
      destruct n as [|n]; [lia|].
      assert (Hd : size / bs = (size - bs) / bs + 1).
      { replace size with ((size - bs) + 1 * bs) at 1 by lia. rewrite N.div_add by lia. reflexivity. }
      edestruct (fun h hv vals H1 H2 H3 H4 H5 H6 H7 H8 H9 => IH n (size - bs) (off + bs) more1 fl1 h hv vals off' h' hv' vals' H1 H2 H3 H4 H5 H6 H7 H8 H9) as (size2 & fl2 & more2 & H2); [.. |exact Ht|];
        [exact Hm1|apply compress_ok|apply regs_length|apply words_length, slice_length; unfold bsz; lia|lia|lia|lia|lia|].
      exists size2, fl2, more2. intros K. rewrite dloop_step by (rewrite Cond, (proj2 (N.leb_le _ _) Hsz); reflexivity).
      unfold while_body at 1. rewrite den_seq.
      assert (Copy : ev (ECall "memory_copy" [EVar "hash_values"; EField (EVar "internal_context") "hash_values"; EBin OMul (ESize wb) (EInt (Z.of_nat (nh a)))])
                (Loc size fl hv vals off more) (at_hash h) = Done (VLoc "hash_values" 0, Loc size (true, snd fl) h vals off more) (at_hash h)).
      { eapply ev_ext; [|reflexivity|].
        - eapply evs_cons; [eapply ev_arr, Lhv|]. eapply evs_cons; [eapply ev_hash, ev_var; [apply Lctx|reflexivity]|].
          eapply evs_cons; [|apply evs_nil]. eapply ev_bin; [reflexivity|reflexivity|].
          apply bin_mul_lit with (m := N.of_nat (nh a)); [|exact Hwb].
          replace (N.of_nat (nh a)) with (Z.to_N (Z.of_nat (nh a))) by lia. apply tu_int; [reflexivity|]. destruct a; cbn; lia.
        - eapply ext_copy_words with (ws := h);
            [apply Lhv|exact Hlay|reflexivity|exact Hwc|eapply load_ctx_ok, get_set_same; exact Hp| |rewrite Hl; symmetry; apply Hh|apply Shv].
          cbn [c_hash]. unfold take. rewrite Nat2N.id. destruct Hh as (Hh & _). rewrite <- Hh. rewrite N.leb_refl, firstn_all. reflexivity. }
      eapply do_else with (t := false); [eapply ev_bin; [exact Copy|reflexivity|reflexivity]|reflexivity|].
      rewrite den_skip. cbv iota beta. rewrite den_seq. cbn [fst snd]. rewrite H1. cbv iota.
      eapply do_op; [eapply ev_var; [apply Lsize|reflexivity]|reflexivity|eapply bin_us; [reflexivity|reflexivity|discriminate|discriminate|exact Tb|reflexivity]|eapply as_u; [apply Lsize|apply tu_same|apply Ssize]|].
      cbv iota.
      assert (usub (2 ^ bits E RSz) size bs = size - bs) as ->.
      { rewrite bits_size_mod. unfold usub. replace (size + (size_mod E - bs)) with ((size - bs) + 1 * size_mod E) by lia.
        rewrite N.mod_add by lia. apply N.mod_small. lia. }
      apply H2.
  Qed.

  (* from the loop to the end of the function *)
  Variables (vx : string) (bad1 bad2 : stmt).
  Notation ncl := (a_ncl (alg_of a)).
  Hypothesis Hwv : word_count E r (wb * N.of_nat ncl) = Some (N.of_nat ncl).
  Hypothesis Hwb2 : wb * N.of_nat ncl < 2 ^ 32.
  Hypothesis Lv : forall size fl hv vals off more, lget (Loc size fl hv vals off more) vx = Some (VArr r vals (snd fl)).
  Hypothesis Sv : forall size fl hv vals off more w, lset (Loc size fl hv vals off more) vx (VArr r w true) =
    Some (Loc size (fst fl, true) hv w off more).
  Hypothesis Loff : forall size fl hv vals off more, lget (Loc size fl hv vals off more) "buffer_offset" = Some (VU RSz off).

  Definition transform_rest : stmt :=
    SWhile (EBin OGe (EVar "size") (EInt (Z.of_N bs))) while_body ;-
    SIf (EBin OEq (ECall "memory_set" [EVar "hash_values"; EInt 0; EBin OMul (ESize wb) (EInt (Z.of_nat (nh a)))]) ENull) bad1 SSkip ;-
    SIf (EBin OEq (ECall "memory_set" [EVar vx; EInt 0; EBin OMul (ESize wb) (EInt (Z.of_nat ncl))]) ENull) bad2 SSkip ;-
    SReturn (ECast true RSz (EVar "buffer_offset")).

  Lemma ev_clear : forall x n m l s old f new l', m = N.of_nat n -> (n < 256)%nat ->
    word_count E r (wb * m) = Some m -> wb * m < 2 ^ 32 -> lget l x = Some (VArr r old f) -> clear_first n old = Some new ->
    lset l x (VArr r new true) = Some l' ->
    ev (ECall "memory_set" [EVar x; EInt 0; EBin OMul (ESize wb) (EInt (Z.of_nat n))]) l s = Done (VLoc x 0, l') s.
  Proof.
    intros x n m l s old f new l' -> Hn Hw Hb Hl Hc Hs. eapply ev_ext; [|reflexivity|].
    - eapply evs_cons; [eapply ev_arr, Hl|]. eapply evs_cons; [reflexivity|].
      eapply evs_cons; [|apply evs_nil]. eapply ev_bin; [reflexivity|reflexivity|].
      apply bin_mul_lit with (m := N.of_nat n); [|exact Hb].
      replace (N.of_nat n) with (Z.to_N (Z.of_nat n)) by lia. apply tu_int; [reflexivity|]. lia.
    - eapply ext_clear_words; [exact Hl|exact Hw|rewrite Nat2N.id; exact Hc|exact Hs].
  Qed.

  Lemma ts_offset : forall off, off <= ssize_max E -> to_signed E RSz (VU RSz off) = Some (to_ssize E off).
  Proof.
    intros off H. unfold to_ssize. rewrite (proj2 (N.leb_le _ _) H). cbn [to_signed]. f_equal.
    unfold ssize_max in H. cbn [bits]. destruct (plat64 E).
    - change (2 ^ Z.of_N 64)%Z with 18446744073709551616%Z. change (2 ^ Z.of_N (64 - 1))%Z with 9223372036854775808%Z. rewrite Z.mod_small by lia.
      rewrite (proj2 (Z.ltb_lt _ _)) by lia. reflexivity.
    - change (2 ^ Z.of_N 32)%Z with 4294967296%Z. change (2 ^ Z.of_N (32 - 1))%Z with 2147483648%Z. rewrite Z.mod_small by lia.
      rewrite (proj2 (Z.ltb_lt _ _)) by lia. reflexivity.
  Qed.

  Lemma rest_ok : forall size more hv vals off' h' hv' vals' hv'' vals'',
    okm more -> hash_ok a (c_hash c0) -> List.length hv = nh a -> List.length vals = a_nv (alg_of a) ->
    (N.to_nat size <= List.length buf)%nat -> size <= ssize_max E -> (N.to_nat size <= fuel)%nat ->
    transform_loop E (alg_of a) (N.to_nat (size / bs)) buf 0 size (c_hash c0) hv vals = Some (off', h', hv', vals') ->
    clear_first (nh a) hv' = Some hv'' -> clear_first ncl vals' = Some vals'' -> off' <= ssize_max E ->
    exists size' more', forall (K : flow -> locals -> M A),
      dn transform_rest (Loc size (false, false) hv vals 0 more) K s0 =
      K (FReturn (VS RSz (to_ssize E off'))) (Loc size' (true, true) hv'' vals'' off' more') (at_hash h').
  Proof.
    intros size more hv vals off' h' hv' vals' hv'' vals'' Hm Hh Hl Hv Hb Hs Hf Ht Hc1 Hc2 Ho.
    assert (Hk : (N.to_nat (size / bs) <= fuel)%nat).
    { pose proof (bs_pos a). assert (size / bs <= size) by (apply N.div_le_upper_bound; nia). lia. }
    destruct (while_ok _ fuel size 0 more (false, false) (c_hash c0) hv vals _ _ _ _ Hm Hh Hl Hv ltac:(lia) ltac:(lia) eq_refl Hk Ht)
      as (size' & fl' & more' & HW).
    exists size', more'. intros K. unfold transform_rest. rewrite den_seq, den_while.
    rewrite with_hash_same in HW by exact Hp. rewrite HW. cbv iota.
    rewrite den_seq. eapply do_else with (t := false);
      [eapply ev_bin; [eapply ev_clear; [reflexivity|destruct a; cbn; lia|exact Hwc|exact Hwb|apply Lhv|exact Hc1|apply Shv]|reflexivity|reflexivity]|reflexivity|].
    rewrite den_skip. cbv iota.
    rewrite den_seq. eapply do_else with (t := false);
      [eapply ev_bin; [eapply ev_clear; [reflexivity|destruct a; cbn; lia|exact Hwv|exact Hwb2|apply Lv|exact Hc2|apply Sv]|reflexivity|reflexivity]|reflexivity|].
    rewrite den_skip. cbv iota.
    eapply do_return; [eapply ev_cast; [eapply ev_var; [apply Loff|reflexivity]|eapply conv_s, ts_offset, Ho]|]. reflexivity.
  Qed.
End While.
