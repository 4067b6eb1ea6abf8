(* The transform function of every algorithm: it runs the compression function of
   the specification over the complete blocks of its buffer. *)
From Coq Require Import Arith NArith ZArith List Lia Bool.
From Verif Require Import Words Spec Tables Transform Machine Context WordFacts BlockFacts ShaFacts Sha2Facts MachineFacts.
Import ListNotations.
Open Scope N_scope.

Definition bsz (a : algid) : nat := N.to_nat (a_bs (alg_of a)).

(* the specification's compression function on lists of words *)
Definition compress_of (a : algid) : list N -> list N -> list N :=
  match a with
  | MD5 => md5_compress_l
  | SHA1 => sha1_compress_l
  | SHA224 | SHA256 => sha2_compress_l sha2_32
  | SHA512 => sha2_compress_l sha2_64
  end.
(* what the local arrays of the C function hold after a block *)
Definition regs_of (a : algid) : list N -> list N -> list N :=
  match a with
  | MD5 => md5_regs
  | SHA1 => sha1_regs
  | SHA224 => sha2_regs sha224_code sha2_32 4
  | SHA256 => sha2_regs sha256_code sha2_32 4
  | SHA512 => sha2_regs sha512_code sha2_64 8
  end.
Definition words_of (a : algid) : list N -> list N :=
  match a with
  | MD5 => md5_words
  | SHA1 => sha1_words
  | SHA224 => sha2_words sha224_code sha2_32 4
  | SHA256 => sha2_words sha256_code sha2_32 4
  | SHA512 => sha2_words sha512_code sha2_64 8
  end.

Notation nh a := (a_nh (alg_of a)).
Notation wd a := (a_w (alg_of a)).

(* a chaining value: the right number of words *)
Definition hash_ok (a : algid) (h : list N) : Prop := length h = nh a /\ Forall (word (wd a)) h.

Lemma compress_ok : forall a h b, hash_ok a (compress_of a h b).
Proof.
  intros a h b. destruct a; cbn [compress_of].
  - destruct (md5_compress_words h b) as [W L]. split; [exact L|exact W].
  - destruct (sha1_compress_words h b) as [W L]. split; [exact L|exact W].
  - destruct (sha2_compress_words sha2_32 h b) as [W L]. split; [exact L|exact W].
  - destruct (sha2_compress_words sha2_32 h b) as [W L]. split; [exact L|exact W].
  - destruct (sha2_compress_words sha2_64 h b) as [W L]. split; [exact L|exact W].
Qed.

Lemma regs_length : forall a h b, length (regs_of a h b) = nh a.
Proof.
  intros a h b. destruct a; cbn [regs_of].
  - rewrite md5_regs_eq. destruct (fold_left _ _ _) as [[[? ?] ?] ?]. reflexivity.
  - rewrite sha1_regs_eq. destruct (fold_left _ _ _) as [[[[? ?] ?] ?] ?]. reflexivity.
  - rewrite sha2_regs_eq. destruct (fold_left _ _ _) as [[[[[[[? ?] ?] ?] ?] ?] ?] ?]. reflexivity.
  - rewrite sha2_regs_eq. destruct (fold_left _ _ _) as [[[[[[[? ?] ?] ?] ?] ?] ?] ?]. reflexivity.
  - rewrite sha2_regs_eq. destruct (fold_left _ _ _) as [[[[[[[? ?] ?] ?] ?] ?] ?] ?]. reflexivity.
Qed.

Lemma words_length : forall a b, length b = bsz a -> length (words_of a b) = a_nv (alg_of a).
Proof.
  intros a b H. destruct a; cbn [words_of].
  - unfold md5_words. rewrite map_length.
    rewrite <- (firstn_all b). change (firstn (length b) b) with (slice b 0 (length b)).
    rewrite H. change (bsz MD5) with (16 * 4)%nat. rewrite pieces_slice.
    + now rewrite map_length, seq_length.
    + lia.
    + rewrite H. cbn. lia.
  - unfold sha1_words. apply schedule_length.
  - unfold sha2_words. apply schedule_length.
  - unfold sha2_words. apply schedule_length.
  - unfold sha2_words. apply schedule_length.
Qed.

Lemma block_ok : forall a u buf off h values,
  Forall is_byte buf -> (N.to_nat off + bsz a <= length buf)%nat ->
  hash_ok a h -> length values = a_nv (alg_of a) ->
  a_block (alg_of a) u buf off h values =
  Some (off + a_bs (alg_of a), compress_of a h (slice buf (N.to_nat off) (bsz a)),
        regs_of a h (slice buf (N.to_nat off) (bsz a)), words_of a (slice buf (N.to_nat off) (bsz a))).
Proof.
  intros a u buf off h values HF Hl [Hh Hw] Hv. destruct a.
  - apply md5_block_ok; assumption.
  - apply sha1_block_ok; assumption.
  - exact (sha2_block_ok _ _ _ sha224_agrees u buf off h values HF Hl Hh Hw Hv).
  - exact (sha2_block_ok _ _ _ sha256_agrees u buf off h values HF Hl Hh Hw Hv).
  - exact (sha2_block_ok _ _ _ sha512_agrees u buf off h values HF Hl Hh Hw Hv).
Qed.

(* constants *)
Lemma bs_pos : forall a, 0 < a_bs (alg_of a).
Proof. destruct a; reflexivity. Qed.
Lemma bs_le : forall a, a_bs (alg_of a) <= 128.
Proof. destruct a; cbn; lia. Qed.
Lemma bsz_pos : forall a, (0 < bsz a)%nat.
Proof. intros a. unfold bsz. pose proof (bs_pos a). lia. Qed.
Lemma bsz_N : forall a, N.of_nat (bsz a) = a_bs (alg_of a).
Proof. intros. unfold bsz. lia. Qed.
Lemma ncl_le : forall a, (a_ncl (alg_of a) <= a_nv (alg_of a))%nat.
Proof. destruct a; cbn; lia. Qed.
Lemma ssize_ge : forall E, 2 ^ 31 - 1 <= ssize_max E.
Proof. intros. unfold ssize_max. destruct (plat64 E); cbn; lia. Qed.
Lemma ssize_lt : forall E, ssize_max E < 2 ^ 63.
Proof. intros. unfold ssize_max. destruct (plat64 E); cbn; lia. Qed.
Lemma size_mod_gt : forall E, 2 * ssize_max E < size_mod E.
Proof. intros. unfold ssize_max, size_mod. destruct (plat64 E); cbn; lia. Qed.
Lemma size_mod_le : forall E, size_mod E <= 2 ^ 64.
Proof. intros. unfold size_mod. destruct (plat64 E); cbn; lia. Qed.

(* run the compression function over k blocks at off *)
Definition blocks (a : algid) (h : list N) (m : list N) : list N :=
  fold_left (compress_of a) (pieces (bsz a) m) h.

Lemma blocks_ok : forall a h m, hash_ok a h -> hash_ok a (blocks a h m).
Proof.
  intros a h m. unfold blocks. generalize (pieces (bsz a) m). intros l. revert h.
  induction l; intros h H; [assumption|]. cbn [fold_left]. apply IHl, compress_ok.
Qed.

Lemma blocks_app : forall a h k m m', length m = (k * bsz a)%nat ->
  blocks a h (m ++ m') = blocks a (blocks a h m) m'.
Proof.
  intros. unfold blocks. rewrite (pieces_app _ (bsz a) k) by (try assumption; apply bsz_pos).
  now rewrite fold_left_app.
Qed.

Fixpoint scratch (a : algid) (k : nat) (buf : list N) (off : nat) (h hv values : list N) : list N * list N :=
  match k with
  | O => (hv, values)
  | S k => let b := slice buf off (bsz a) in
           scratch a k buf (off + bsz a) (compress_of a h b) (regs_of a h b) (words_of a b)
  end.

Lemma scratch_length : forall a k buf off h hv values,
  (off + k * bsz a <= length buf)%nat ->
  length hv = nh a -> length values = a_nv (alg_of a) ->
  length (fst (scratch a k buf off h hv values)) = nh a /\
  length (snd (scratch a k buf off h hv values)) = a_nv (alg_of a).
Proof.
  induction k; intros buf off h hv values Hl H1 H2; [split; assumption|].
  cbn [scratch]. apply IHk; [nia|apply regs_length|apply words_length].
  apply slice_length. nia.
Qed.

Lemma transform_loop_ok : forall E a k buf off size h hv values,
  Forall is_byte buf -> hash_ok a h -> length values = a_nv (alg_of a) ->
  k = N.to_nat (size / a_bs (alg_of a)) ->
  (N.to_nat off + N.to_nat size <= length buf)%nat ->
  transform_loop E (alg_of a) k buf off size h hv values =
  Some (off + size / a_bs (alg_of a) * a_bs (alg_of a),
        blocks a h (slice buf (N.to_nat off) (k * bsz a)),
        fst (scratch a k buf (N.to_nat off) h hv values), snd (scratch a k buf (N.to_nat off) h hv values)).
Proof.
  intros E a k. pose proof (bs_pos a) as Hbs.
  induction k; intros buf off size h hv values HF Hh Hv Hk Hl.
  - assert (Hq : size / a_bs (alg_of a) = 0) by lia.
    assert (Hs : size < a_bs (alg_of a)).
    { apply N.div_small_iff in Hq; lia. }
    cbn [transform_loop scratch fst snd]. destruct (N.ltb_spec size (a_bs (alg_of a))); [|lia].
    rewrite Hq, N.mul_0_l, N.add_0_r. reflexivity.
  - assert (Hs : a_bs (alg_of a) <= size).
    { destruct (N.lt_ge_cases size (a_bs (alg_of a))) as [L|]; [|assumption].
      rewrite (N.div_small _ _ L) in Hk. cbn in Hk. lia. }
    assert (Hdiv : size / a_bs (alg_of a) = (size - a_bs (alg_of a)) / a_bs (alg_of a) + 1).
    { replace size with ((size - a_bs (alg_of a)) + 1 * a_bs (alg_of a)) at 1 by lia.
      rewrite N.div_add by lia. reflexivity. }
    cbn [transform_loop scratch]. destruct (N.ltb_spec size (a_bs (alg_of a))); [lia|].
    assert (Hkb : (S k * bsz a <= N.to_nat size)%nat).
    { rewrite Hk. unfold bsz. pose proof (N.mul_div_le size (a_bs (alg_of a))). nia. }
    rewrite block_ok; [|assumption|nia|assumption|assumption]. cbn [obind].
    rewrite IHk.
    + replace (N.to_nat (off + a_bs (alg_of a))) with (N.to_nat off + bsz a)%nat by (unfold bsz; lia).
      change (S k * bsz a)%nat with (bsz a + k * bsz a)%nat.
      rewrite slice_app, (blocks_app a h 1) by (rewrite slice_length; nia).
      unfold blocks at 3. rewrite pieces_one by (try apply bsz_pos; rewrite slice_length; nia). cbn [fold_left].
      rewrite Hdiv. do 4 f_equal. lia.
    + assumption.
    + apply compress_ok.
    + apply words_length, slice_length. nia.
    + lia.
    + unfold bsz in Hkb. lia.
Qed.

(* the residue of a transform call *)
Definition frame_of (E : env) (a : algid) (call : nat) (buf : list N) (size : N) (h : list N) : frame :=
  let A := alg_of a in
  let sc := scratch a (N.to_nat (size / a_bs A)) buf 0 h (map (stack_junk E call) (seq 0 (a_nh A)))
              (map (stack_junk E call) (seq (a_nh A) (a_nv A))) in
  mk_frame (repeat 0 (a_nh A)) (repeat 0 (a_ncl A) ++ skipn (a_ncl A) (snd sc)).

Definition done_bytes (a : algid) (size : N) : N := size / a_bs (alg_of a) * a_bs (alg_of a).
Lemma done_le : forall a size, done_bytes a size <= size.
Proof. intros. unfold done_bytes. rewrite N.mul_comm. apply N.mul_div_le. pose proof (bs_pos a). lia. Qed.

Lemma slice_slice0 : forall (l : list N) n m, (n <= m)%nat -> slice l 0 n = firstn n (firstn m l).
Proof. intros. unfold slice. cbn [skipn]. rewrite firstn_firstn. f_equal. lia. Qed.

Lemma transform_ok : forall E a p buf size e s c,
  get_obj s p = Some (OCtx a c) -> hash_ok a (c_hash c) ->
  Forall is_byte buf -> (N.to_nat size <= length buf)%nat -> size <= ssize_max E ->
  transform E a (Some p) (Some buf) size e s =
  Done (Z.of_N (done_bytes a size))
       (add_frames [frame_of E a (length (resid s)) buf size (c_hash c)]
         (set_obj p (OCtx a (mk_ctx (c_count c) (blocks a (c_hash c) (firstn (N.to_nat (done_bytes a size)) buf))
                                    (c_boff c) (c_block c))) s)).
Proof.
  intros E a p buf size e s c Hp Hh HF Hl Hs. unfold transform.
  destruct (N.ltb_spec (ssize_max E) size); [lia|].
  erewrite bind_done by (apply load_ctx_ok; eassumption).
  erewrite bind_done by reflexivity.
  erewrite transform_loop_ok; try assumption; try reflexivity.
  2: now rewrite map_length, seq_length.
  rewrite (bind_done _ _ _ _ _ _ _ (lift_some _ _ _)). cbn [N.to_nat].
  erewrite bind_done by (eapply store_ctx_ok; eassumption).
  pose proof (N.mul_div_le size (a_bs (alg_of a))) as Hmd. pose proof (bs_pos a) as Hbs.
  assert (SL := scratch_length a (N.to_nat (size / a_bs (alg_of a))) buf 0 (c_hash c)
    (map (stack_junk E (length (resid s))) (seq 0 (nh a)))
    (map (stack_junk E (length (resid s))) (seq (nh a) (a_nv (alg_of a))))).
  destruct SL as [SL1 SL2]; [unfold bsz; nia|now rewrite map_length, seq_length|now rewrite map_length, seq_length|].
  unfold clear_first at 1. rewrite SL1. rewrite Nat.leb_refl.
  rewrite (bind_done _ _ _ _ _ _ _ (lift_some _ _ _)).
  unfold clear_first at 1. rewrite SL2.
  destruct (Nat.leb_spec (a_ncl (alg_of a)) (a_nv (alg_of a))); [|pose proof (ncl_le a); lia].
  rewrite (bind_done _ _ _ _ _ _ _ (lift_some _ _ _)).
  rewrite skipn_all2 by lia. rewrite app_nil_r.
  erewrite bind_done by reflexivity.
  assert (Hts : to_ssize E (0 + size / a_bs (alg_of a) * a_bs (alg_of a)) = Z.of_N (done_bytes a size)).
  { rewrite N.add_0_l. unfold to_ssize. fold (done_bytes a size). pose proof (done_le a size).
    destruct (N.leb_spec (done_bytes a size) (ssize_max E)); [reflexivity|lia]. }
  assert (Hsl : slice buf 0 (N.to_nat (size / a_bs (alg_of a)) * bsz a) = firstn (N.to_nat (done_bytes a size)) buf).
  { unfold slice. cbn [skipn]. f_equal. unfold done_bytes, bsz. lia. }
  rewrite Hts, Hsl. unfold ret, add_frames. rewrite set_obj_resid. reflexivity.
Qed.
