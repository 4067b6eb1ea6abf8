(* The text of libhmac_X_context_transform does what Context.v says. *)
From Coq Require Import Arith NArith ZArith List Lia Bool String.
From Verif Require Import Words Spec Machine Transform Context Hash CText TextMd5 TextSha1 TextSha224 TextSha256 TextSha512 TextAll.
From Verif Require Import Vocab WordFacts TableFacts MachineFacts TransformFacts ContextFacts HashFacts TextFacts TextContext TextUpdate TextLoops TextWhile TextMd5Facts TextSha1Facts TextSha224Facts TextSha256Facts TextSha512Facts.
Import ListNotations.
Open Scope string_scope.
Open Scope list_scope.
Open Scope N_scope.

Lemma shown_readable : forall P s a p v buf c h, get_obj s p = Some (OCtx a c) -> shown s a p v buf ->
  is_arr v = false /\ readable P (with_hash a p c s h) v buf.
Proof.
  intros P s a p v buf c h Hp [(q & l & -> & Hl & Hle & ->)|(c' & -> & Hc & ->)]; (split; [reflexivity|]); intros lo i k b Hb; unfold bget in Hb.
  - do 2 eexists. split; [reflexivity|]. split; [reflexivity|]. cbn [load_at]. rewrite nth_error_skipn in Hb.
    assert (L : (N.to_nat (snd q) + N.to_nat (i + k) < List.length l)%nat) by (apply nth_error_Some; congruence).
    assert (fst q <> p) by (intros Q; rewrite Q in Hl; congruence).
    erewrite bind_done by (eapply read_byte_ok; [cbn [ptr_add fst]; unfold with_hash; rewrite get_set_other by congruence; exact Hl|cbn [ptr_add snd]; lia]).
    unfold ret. cbn [ptr_add fst snd]. do 2 f_equal.
    replace (N.to_nat (snd q + i + k)) with (N.to_nat (snd q) + N.to_nat (i + k))%nat by lia.
    apply (nth_error_nth _ _ 0) in Hb. exact Hb.
  - do 2 eexists. split; [reflexivity|]. split; [reflexivity|]. cbn [load_at]. rewrite Hp in Hc. injection Hc as <-.
    erewrite bind_done by (eapply load_ctx_ok, get_set_same; exact Hp). cbn [c_block].
    rewrite N.add_0_l. unfold bind, lift, aget. rewrite Hb. reflexivity.
Qed.

Lemma clear_first_some : forall k l, (k <= List.length l)%nat -> exists l', clear_first k l = Some l'.
Proof. intros k l H. unfold clear_first. rewrite (proj2 (Nat.leb_le _ _) H). eauto. Qed.

Lemma transform_result : forall E a p buf size e s c,
  get_obj s p = Some (OCtx a c) -> hash_ok a (c_hash c) -> Forall is_byte buf -> (N.to_nat size <= List.length buf)%nat -> size <= ssize_max E ->
  exists off' h' hv' vals' hv'' vals'',
    transform_loop E (alg_of a) (N.to_nat (size / a_bs (alg_of a))) buf 0 size (c_hash c)
      (map (stack_junk E (List.length (resid s))) (seq 0 (nh a))) (map (stack_junk E (List.length (resid s))) (seq (nh a) (a_nv (alg_of a)))) =
      Some (off', h', hv', vals') /\
    clear_first (nh a) hv' = Some hv'' /\ clear_first (a_ncl (alg_of a)) vals' = Some vals'' /\ off' <= ssize_max E /\
    transform E a (Some p) (Some buf) size e s =
    (log_frame (mk_frame hv'' vals'') ;;; ret (to_ssize E off')) (with_hash a p c s h').
Proof.
  intros E a p buf size e s c Hp Hh HF Hl Hs.
  pose proof (bs_pos a) as Bp. pose proof (N.mul_div_le size (a_bs (alg_of a)) ltac:(lia)) as Dl.
  pose proof (transform_loop_ok E a (N.to_nat (size / a_bs (alg_of a))) buf 0 size (c_hash c)
    (map (stack_junk E (List.length (resid s))) (seq 0 (nh a))) (map (stack_junk E (List.length (resid s))) (seq (nh a) (a_nv (alg_of a))))
    HF Hh ltac:(now rewrite map_length, seq_length) eq_refl ltac:(lia)) as T.
  match type of T with _ = Some (_, _, fst ?x, snd ?x) => set (sc := x) in * end.
  assert (HL : List.length (fst sc) = nh a /\ List.length (snd sc) = a_nv (alg_of a)).
  { apply scratch_length; [unfold bsz; change (N.to_nat 0) with O; nia|now rewrite map_length, seq_length|now rewrite map_length, seq_length]. }
  destruct HL as (L1 & L2). clearbody sc. destruct sc as [hv' vals']. cbn [fst snd] in *.
  destruct (clear_first_some (nh a) hv' ltac:(lia)) as (hv'' & C1).
  destruct (clear_first_some (a_ncl (alg_of a)) vals' ltac:(rewrite L2; apply ncl_le)) as (vals'' & C2).
  do 6 eexists. split; [exact T|]. split; [exact C1|]. split; [exact C2|]. split; [lia|].
  unfold transform. rewrite (proj2 (N.ltb_ge _ _) Hs). erewrite bind_done by (apply load_ctx_ok; eassumption).
  erewrite bind_done by reflexivity. rewrite T. rewrite (bind_done _ _ _ _ _ _ _ (lift_some _ _ _)).
  cbv iota. erewrite bind_done by (eapply store_ctx_ok; exact Hp). rewrite C1, (bind_done _ _ _ _ _ _ _ (lift_some _ _ _)).
  rewrite C2, (bind_done _ _ _ _ _ _ _ (lift_some _ _ _)). reflexivity.
Qed.

Lemma pa_c : forall E x r t v n w l, to_unsigned E r v = Some n -> bind_params E t w = Some l ->
  bind_params E ((x, CInt false r) :: t) (v :: w) = Some ((x, VU r n) :: l).
Proof. intros. cbn [bind_params convert]. rewrite H, H0. reflexivity. Qed.

Lemma text_transform_md5 : forall E fuel d, transform_as_modelled E fuel (S d) MD5.
Proof.
  intros E fuel d p v buf size w e s c Hw Hp Hh Hsh Hby Hl Hs Hf. unfold enough in Hf.
  destruct (shown_readable (md5_text (unrolled E)) s MD5 p v buf c (c_hash c) Hp Hsh) as (Hva & _).
  assert (Hrd : forall h, readable (md5_text (unrolled E)) (with_hash MD5 p c s h) v buf) by (intros; now apply (shown_readable _ s MD5 p v buf c h Hp Hsh)).
  destruct (transform_result E MD5 p buf size e s c Hp Hh Hby Hl Hs) as (off' & h' & hv' & vals' & hv'' & vals'' & T & C1 & C2 & Ho & HT).
  pose proof (ssize_lt E) as Ss. pose proof (size_mod_gt E) as Sm.
  assert (R : forall b b1 b2, exists size' more', forall K : flow -> locals -> M (val * list (option val)),
    @den E (md5_text (unrolled E)) (call_text E (md5_text (unrolled E)) fuel d) fuel _
      (transform_rest MD5 (md5_inner (unrolled E)) b 4 "values_32bit" b1 b2)
      (md5_locals p v (v_error e) size (false, false) (map (stack_junk E (List.length (resid s))) (seq 0 4)) (map (stack_junk E (List.length (resid s))) (seq 4 16)) 0
         (if unrolled E then [] else md5_more 0 0 0 0)) K s =
    K (FReturn (VS RSz (to_ssize E off'))) (md5_locals p v (v_error e) size' (true, true) hv'' vals'' off' more') (with_hash MD5 p c s h')).
  { intros b b1 b2.
    eapply rest_ok with (Loc := md5_locals p v (v_error e)) (okm := md5_ok (unrolled E)) (y := layout_md5) (buf := buf); try eassumption; try reflexivity.
    - intros size0 fl vals off more h off0 h0 hv0 vals0 Hm Hb Hoff. change (a_bs (alg_of MD5)) with 64 in Hoff.
      destruct (md5_inner_ok E (md5_text (unrolled E)) (call_text E (md5_text (unrolled E)) fuel d) fuel (val * list (option val)) eq_refl eq_refl eq_refl eq_refl
        p v (v_error e) size0 Hva ltac:(lia) (unrolled E) fl vals off more (with_hash MD5 p c s h) (mk_ctx (c_count c) h (c_boff c) (c_block c)) buf
        off0 h0 hv0 vals0 Hm ltac:(eapply get_set_same; exact Hp) (Hrd h) Hby ltac:(lia) Hb) as (fl1 & more1 & Hm1 & Q).
      exists fl1, more1. split; [exact Hm1|]. intros K. cbn [c_hash] in Q. rewrite Q.
      unfold with_hash. cbn [c_count c_boff c_block]. now rewrite set_set.
    - destruct (unrolled E); [reflexivity|]. cbn [md5_ok]. repeat eexists.
    - lia. }
  unfold bind at 1. rewrite HT. unfold bind at 1, log_frame, ret at 1 2. clear HT T.
  assert (Hv : (exists q, v = VBytes q) \/ v = VBlock MD5 p 0) by (destruct Hsh as [(q & _ & -> & _)|(? & -> & _)]; eauto).
  clear Hsh Hrd. destruct (unrolled E) eqn:Hu; destruct Hv as [(q & ->)| ->].
  all: destruct e; cbn [v_error] in *.
  all: (eapply enter_fun; [reflexivity | eapply pa_ptr, pa_ptr, pa_c; [exact Hw|tpar] | reflexivity | tloc | intros kl ke Hkl Hke]).
  all: tbody.
  all: repeat tst.
  all: (telse; [lia|]; tst; tk; tk).
  all: match goal with |- den (SSeq (SWhile ?c (SSeq (SIf _ ?b _) _)) (SSeq (SIf _ ?b1 _) (SSeq (SIf _ ?b2 _) _))) _ _ _ = _ => destruct (R b b1 b2) as (size' & more' & Q) end.
  all: (etransitivity; [apply Q|]; repeat tst).
  all: (unfold leave, bind, lift; reflexivity).
Qed.

Lemma text_transform_sha1 : forall E fuel d, transform_as_modelled E fuel (S d) SHA1.
Proof.
  intros E fuel d p v buf size w e s c Hw Hp Hh Hsh Hby Hl Hs Hf. unfold enough in Hf.
  destruct (shown_readable (sha1_text (unrolled E)) s SHA1 p v buf c (c_hash c) Hp Hsh) as (Hva & _).
  assert (Hrd : forall h, readable (sha1_text (unrolled E)) (with_hash SHA1 p c s h) v buf) by (intros; now apply (shown_readable _ s SHA1 p v buf c h Hp Hsh)).
  destruct (transform_result E SHA1 p buf size e s c Hp Hh Hby Hl Hs) as (off' & h' & hv' & vals' & hv'' & vals'' & T & C1 & C2 & Ho & HT).
  pose proof (ssize_lt E) as Ss. pose proof (size_mod_gt E) as Sm.
  assert (R : forall b b1 b2, exists size' more', forall K : flow -> locals -> M (val * list (option val)),
    @den E (sha1_text (unrolled E)) (call_text E (sha1_text (unrolled E)) fuel d) fuel _
      (transform_rest SHA1 (sha1_inner (unrolled E)) b 4 "values_32bit" b1 b2)
      (sha1_locals p v (v_error e) size (false, false) (map (stack_junk E (List.length (resid s))) (seq 0 5)) (map (stack_junk E (List.length (resid s))) (seq 5 80)) 0
         (if unrolled E then [] else sha1_more 0 0 0)) K s =
    K (FReturn (VS RSz (to_ssize E off'))) (sha1_locals p v (v_error e) size' (true, true) hv'' vals'' off' more') (with_hash SHA1 p c s h')).
  { intros b b1 b2.
    eapply rest_ok with (Loc := sha1_locals p v (v_error e)) (okm := sha1_ok (unrolled E)) (y := layout_sha1) (buf := buf); try eassumption; try reflexivity.
    - intros size0 fl vals off more h off0 h0 hv0 vals0 Hm Hb Hoff. change (a_bs (alg_of SHA1)) with 64 in Hoff.
      destruct (sha1_inner_ok E (sha1_text (unrolled E)) (call_text E (sha1_text (unrolled E)) fuel d) fuel (val * list (option val)) eq_refl
        p v (v_error e) size0 Hva ltac:(lia) (unrolled E) fl vals off more (with_hash SHA1 p c s h) (mk_ctx (c_count c) h (c_boff c) (c_block c)) buf
        off0 h0 hv0 vals0 Hm ltac:(eapply get_set_same; exact Hp) (Hrd h) Hby ltac:(lia) Hb) as (fl1 & more1 & Hm1 & Q).
      exists fl1, more1. split; [exact Hm1|]. intros K. cbn [c_hash] in Q. rewrite Q.
      unfold with_hash. cbn [c_count c_boff c_block]. now rewrite set_set.
    - destruct (unrolled E); [reflexivity|]. cbn [sha1_ok]. repeat eexists.
    - lia. }
  unfold bind at 1. rewrite HT. unfold bind at 1, log_frame, ret at 1 2. clear HT T.
  assert (Hv : (exists q, v = VBytes q) \/ v = VBlock SHA1 p 0) by (destruct Hsh as [(q & _ & -> & _)|(? & -> & _)]; eauto).
  clear Hsh Hrd. destruct (unrolled E) eqn:Hu; destruct Hv as [(q & ->)| ->].
  all: destruct e; cbn [v_error] in *.
  all: (eapply enter_fun; [reflexivity | eapply pa_ptr, pa_ptr, pa_c; [exact Hw|tpar] | reflexivity | tloc | intros kl ke Hkl Hke]).
  all: tbody.
  all: repeat tst.
  all: (telse; [lia|]; tst; tk; tk).
  all: match goal with |- den (SSeq (SWhile ?c (SSeq (SIf _ ?b _) _)) (SSeq (SIf _ ?b1 _) (SSeq (SIf _ ?b2 _) _))) _ _ _ = _ => destruct (R b b1 b2) as (size' & more' & Q) end.
  all: (etransitivity; [apply Q|]; repeat tst).
  all: (unfold leave, bind, lift; reflexivity).
Qed.

Lemma text_transform_sha224 : forall E fuel d, transform_as_modelled E fuel (S d) SHA224.
Proof.
  intros E fuel d p v buf size w e s c Hw Hp Hh Hsh Hby Hl Hs Hf. unfold enough in Hf.
  destruct (shown_readable (sha224_text (unrolled E)) s SHA224 p v buf c (c_hash c) Hp Hsh) as (Hva & _).
  assert (Hrd : forall h, readable (sha224_text (unrolled E)) (with_hash SHA224 p c s h) v buf) by (intros; now apply (shown_readable _ s SHA224 p v buf c h Hp Hsh)).
  destruct (transform_result E SHA224 p buf size e s c Hp Hh Hby Hl Hs) as (off' & h' & hv' & vals' & hv'' & vals'' & T & C1 & C2 & Ho & HT).
  pose proof (ssize_lt E) as Ss. pose proof (size_mod_gt E) as Sm.
  assert (R : forall b b1 b2, exists size' more', forall K : flow -> locals -> M (val * list (option val)),
    @den E (sha224_text (unrolled E)) (call_text E (sha224_text (unrolled E)) fuel d) fuel _
      (transform_rest SHA224 (sha224_inner (unrolled E)) b 4 "values_32bit" b1 b2)
      (sha224_locals p v (v_error e) size (false, false) (map (stack_junk E (List.length (resid s))) (seq 0 8)) (map (stack_junk E (List.length (resid s))) (seq 8 64)) 0
         (sha224_more (0, 0, 0, 0) (if unrolled E then [] else sha224_idx 0 0))) K s =
    K (FReturn (VS RSz (to_ssize E off'))) (sha224_locals p v (v_error e) size' (true, true) hv'' vals'' off' more') (with_hash SHA224 p c s h')).
  { intros b b1 b2.
    eapply rest_ok with (Loc := sha224_locals p v (v_error e)) (okm := sha224_ok (unrolled E)) (y := layout_sha224) (buf := buf); try eassumption; try reflexivity.
    - intros size0 fl vals off more h off0 h0 hv0 vals0 Hm Hb Hoff. change (a_bs (alg_of SHA224)) with 64 in Hoff.
      destruct (sha224_inner_ok E (sha224_text (unrolled E)) (call_text E (sha224_text (unrolled E)) fuel d) fuel (val * list (option val)) eq_refl eq_refl
        p v (v_error e) size0 Hva ltac:(lia) (unrolled E) fl vals off more (with_hash SHA224 p c s h) (mk_ctx (c_count c) h (c_boff c) (c_block c)) buf
        off0 h0 hv0 vals0 Hm ltac:(eapply get_set_same; exact Hp) (Hrd h) Hby ltac:(lia) Hb) as (fl1 & more1 & Hm1 & Q).
      exists fl1, more1. split; [exact Hm1|]. intros K. cbn [c_hash] in Q. rewrite Q.
      unfold with_hash. cbn [c_count c_boff c_block]. now rewrite set_set.
    - destruct (unrolled E); cbn [sha224_ok]; repeat eexists.
    - lia. }
  unfold bind at 1. rewrite HT. unfold bind at 1, log_frame, ret at 1 2. clear HT T.
  assert (Hv : (exists q, v = VBytes q) \/ v = VBlock SHA224 p 0) by (destruct Hsh as [(q & _ & -> & _)|(? & -> & _)]; eauto).
  clear Hsh Hrd. destruct (unrolled E) eqn:Hu; destruct Hv as [(q & ->)| ->].
  all: destruct e; cbn [v_error] in *.
  all: (eapply enter_fun; [reflexivity | eapply pa_ptr, pa_ptr, pa_c; [exact Hw|tpar] | reflexivity | tloc | intros kl ke Hkl Hke]).
  all: tbody.
  all: repeat tst.
  all: (telse; [lia|]; tst; tk; tk).
  all: match goal with |- den (SSeq (SWhile ?c (SSeq (SIf _ ?b _) _)) (SSeq (SIf _ ?b1 _) (SSeq (SIf _ ?b2 _) _))) _ _ _ = _ => destruct (R b b1 b2) as (size' & more' & Q) end.
  all: (etransitivity; [apply Q|]; repeat tst).
  all: (unfold leave, bind, lift; reflexivity).
Qed.

Lemma text_transform_sha256 : forall E fuel d, transform_as_modelled E fuel (S d) SHA256.
Proof.
  intros E fuel d p v buf size w e s c Hw Hp Hh Hsh Hby Hl Hs Hf. unfold enough in Hf.
  destruct (shown_readable (sha256_text (unrolled E)) s SHA256 p v buf c (c_hash c) Hp Hsh) as (Hva & _).
  assert (Hrd : forall h, readable (sha256_text (unrolled E)) (with_hash SHA256 p c s h) v buf) by (intros; now apply (shown_readable _ s SHA256 p v buf c h Hp Hsh)).
  destruct (transform_result E SHA256 p buf size e s c Hp Hh Hby Hl Hs) as (off' & h' & hv' & vals' & hv'' & vals'' & T & C1 & C2 & Ho & HT).
  pose proof (ssize_lt E) as Ss. pose proof (size_mod_gt E) as Sm.
  assert (R : forall b b1 b2, exists size' more', forall K : flow -> locals -> M (val * list (option val)),
    @den E (sha256_text (unrolled E)) (call_text E (sha256_text (unrolled E)) fuel d) fuel _
      (transform_rest SHA256 (sha256_inner (unrolled E)) b 4 "values_32bit" b1 b2)
      (sha256_locals p v (v_error e) size (false, false) (map (stack_junk E (List.length (resid s))) (seq 0 8)) (map (stack_junk E (List.length (resid s))) (seq 8 64)) 0
         (sha256_more (0, 0, 0, 0) (if unrolled E then [] else sha256_idx 0 0))) K s =
    K (FReturn (VS RSz (to_ssize E off'))) (sha256_locals p v (v_error e) size' (true, true) hv'' vals'' off' more') (with_hash SHA256 p c s h')).
  { intros b b1 b2.
    eapply rest_ok with (Loc := sha256_locals p v (v_error e)) (okm := sha256_ok (unrolled E)) (y := layout_sha256) (buf := buf); try eassumption; try reflexivity.
    - intros size0 fl vals off more h off0 h0 hv0 vals0 Hm Hb Hoff. change (a_bs (alg_of SHA256)) with 64 in Hoff.
      destruct (sha256_inner_ok E (sha256_text (unrolled E)) (call_text E (sha256_text (unrolled E)) fuel d) fuel (val * list (option val)) eq_refl eq_refl
        p v (v_error e) size0 Hva ltac:(lia) (unrolled E) fl vals off more (with_hash SHA256 p c s h) (mk_ctx (c_count c) h (c_boff c) (c_block c)) buf
        off0 h0 hv0 vals0 Hm ltac:(eapply get_set_same; exact Hp) (Hrd h) Hby ltac:(lia) Hb) as (fl1 & more1 & Hm1 & Q).
      exists fl1, more1. split; [exact Hm1|]. intros K. cbn [c_hash] in Q. rewrite Q.
      unfold with_hash. cbn [c_count c_boff c_block]. now rewrite set_set.
    - destruct (unrolled E); cbn [sha256_ok]; repeat eexists.
    - lia. }
  unfold bind at 1. rewrite HT. unfold bind at 1, log_frame, ret at 1 2. clear HT T.
  assert (Hv : (exists q, v = VBytes q) \/ v = VBlock SHA256 p 0) by (destruct Hsh as [(q & _ & -> & _)|(? & -> & _)]; eauto).
  clear Hsh Hrd. destruct (unrolled E) eqn:Hu; destruct Hv as [(q & ->)| ->].
  all: destruct e; cbn [v_error] in *.
  all: (eapply enter_fun; [reflexivity | eapply pa_ptr, pa_ptr, pa_c; [exact Hw|tpar] | reflexivity | tloc | intros kl ke Hkl Hke]).
  all: tbody.
  all: repeat tst.
  all: (telse; [lia|]; tst; tk; tk).
  all: match goal with |- den (SSeq (SWhile ?c (SSeq (SIf _ ?b _) _)) (SSeq (SIf _ ?b1 _) (SSeq (SIf _ ?b2 _) _))) _ _ _ = _ => destruct (R b b1 b2) as (size' & more' & Q) end.
  all: (etransitivity; [apply Q|]; repeat tst).
  all: (unfold leave, bind, lift; reflexivity).
Qed.

Lemma text_transform_sha512 : forall E fuel d, transform_as_modelled E fuel (S d) SHA512.
Proof.
  intros E fuel d p v buf size w e s c Hw Hp Hh Hsh Hby Hl Hs Hf. unfold enough in Hf.
  destruct (shown_readable (sha512_text (unrolled E)) s SHA512 p v buf c (c_hash c) Hp Hsh) as (Hva & _).
  assert (Hrd : forall h, readable (sha512_text (unrolled E)) (with_hash SHA512 p c s h) v buf) by (intros; now apply (shown_readable _ s SHA512 p v buf c h Hp Hsh)).
  destruct (transform_result E SHA512 p buf size e s c Hp Hh Hby Hl Hs) as (off' & h' & hv' & vals' & hv'' & vals'' & T & C1 & C2 & Ho & HT).
  pose proof (ssize_lt E) as Ss. pose proof (size_mod_gt E) as Sm.
  assert (R : forall b b1 b2, exists size' more', forall K : flow -> locals -> M (val * list (option val)),
    @den E (sha512_text (unrolled E)) (call_text E (sha512_text (unrolled E)) fuel d) fuel _
      (transform_rest SHA512 (sha512_inner (unrolled E)) b 8 "values_64bit" b1 b2)
      (sha512_locals p v (v_error e) size (false, false) (map (stack_junk E (List.length (resid s))) (seq 0 8)) (map (stack_junk E (List.length (resid s))) (seq 8 80)) 0
         (sha512_more (0, 0, 0, 0) (if unrolled E then [] else sha512_idx 0 0))) K s =
    K (FReturn (VS RSz (to_ssize E off'))) (sha512_locals p v (v_error e) size' (true, true) hv'' vals'' off' more') (with_hash SHA512 p c s h')).
  { intros b b1 b2.
    eapply rest_ok with (Loc := sha512_locals p v (v_error e)) (okm := sha512_ok (unrolled E)) (y := layout_sha512) (buf := buf); try eassumption; try reflexivity.
    - intros size0 fl vals off more h off0 h0 hv0 vals0 Hm Hb Hoff. change (a_bs (alg_of SHA512)) with 128 in Hoff.
      destruct (sha512_inner_ok E (sha512_text (unrolled E)) (call_text E (sha512_text (unrolled E)) fuel d) fuel (val * list (option val)) eq_refl eq_refl
        p v (v_error e) size0 Hva ltac:(lia) (unrolled E) fl vals off more (with_hash SHA512 p c s h) (mk_ctx (c_count c) h (c_boff c) (c_block c)) buf
        off0 h0 hv0 vals0 Hm ltac:(eapply get_set_same; exact Hp) (Hrd h) Hby ltac:(lia) Hb) as (fl1 & more1 & Hm1 & Q).
      exists fl1, more1. split; [exact Hm1|]. intros K. cbn [c_hash] in Q. rewrite Q.
      unfold with_hash. cbn [c_count c_boff c_block]. now rewrite set_set.
    - destruct (unrolled E); cbn [sha512_ok]; repeat eexists.
    - lia. }
  unfold bind at 1. rewrite HT. unfold bind at 1, log_frame, ret at 1 2. clear HT T.
  assert (Hv : (exists q, v = VBytes q) \/ v = VBlock SHA512 p 0) by (destruct Hsh as [(q & _ & -> & _)|(? & -> & _)]; eauto).
  clear Hsh Hrd. destruct (unrolled E) eqn:Hu; destruct Hv as [(q & ->)| ->].
  all: destruct e; cbn [v_error] in *.
  all: (eapply enter_fun; [reflexivity | eapply pa_ptr, pa_ptr, pa_c; [exact Hw|tpar] | reflexivity | tloc | intros kl ke Hkl Hke]).
  all: tbody.
  all: repeat tst.
  all: (telse; [lia|]; tst; tk; tk).
  all: match goal with |- den (SSeq (SWhile ?c (SSeq (SIf _ ?b _) _)) (SSeq (SIf _ ?b1 _) (SSeq (SIf _ ?b2 _) _))) _ _ _ = _ => destruct (R b b1 b2) as (size' & more' & Q) end.
  all: (etransitivity; [apply Q|]; repeat tst).
  all: (unfold leave, bind, lift; reflexivity).
Qed.

Lemma text_transform : forall a E fuel d, transform_as_modelled E fuel (S d) a.
Proof.
  intros [] E fuel d; [apply text_transform_md5|apply text_transform_sha1|apply text_transform_sha224|apply text_transform_sha256|apply text_transform_sha512].
Qed.
