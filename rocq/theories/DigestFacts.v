(* finalize, and the representation invariant of a context: which message it has
   absorbed. *)
From Coq Require Import Arith NArith ZArith List Lia Bool.
From Verif Require Import Words Spec Tables Transform Machine Context WordFacts BlockFacts ShaFacts MachineFacts TransformFacts ContextFacts.
Import ListNotations.
Open Scope N_scope.
Arguments N.mul : simpl never.
Arguments N.add : simpl never.
Arguments N.sub : simpl never.
Arguments N.div : simpl never.
Arguments N.modulo : simpl never.
Arguments N.pow : simpl never.
Arguments alg_of : simpl never.

(* ------------------------------------------------------- bytes of words *)

Definition wbytes (a : algid) : nat := N.to_nat (wd a / 8).
Definition word_bytes (a : algid) (n : nat) (v : N) : list N :=
  if a_big (alg_of a) then be_bytes n v else le_bytes n v.

Lemma copy_from_bytes : forall a n v, copy_from_uint n (a_big (alg_of a)) v = word_bytes a n v.
Proof.
  intros a n v. unfold copy_from_uint, word_bytes, be_bytes.
  assert (H : map (fun i => N.land (ushr v (8 * N.of_nat i)) 255) (seq 0 n) = le_bytes n v).
  { rewrite le_bytes_map. apply map_ext. intros i. unfold ushr. rewrite N.shiftr_div_pow2.
    change 255 with (N.ones 8). rewrite N.land_ones. reflexivity. }
  rewrite H. reflexivity.
Qed.

Lemma word_bytes_length : forall a n v, length (word_bytes a n v) = n.
Proof. intros. unfold word_bytes. destruct (a_big _); [apply be_bytes_length|apply le_bytes_length]. Qed.
Lemma word_bytes_bytes : forall a n v, Forall is_byte (word_bytes a n v).
Proof. intros. unfold word_bytes. destruct (a_big _); [apply be_bytes_bytes|apply le_bytes_bytes]. Qed.

Lemma le_bytes_app : forall n m v, le_bytes (n + m) v = le_bytes n v ++ le_bytes m (v / 256 ^ N.of_nat n).
Proof.
  induction n; intros m v.
  - cbn [Nat.add le_bytes app]. change (256 ^ N.of_nat 0) with 1. now rewrite N.div_1_r.
  - cbn [Nat.add le_bytes app]. rewrite IHn. do 3 f_equal.
    rewrite N.div_div by (try lia; apply N.pow_nonzero; lia). f_equal.
    rewrite Nat2N.inj_succ, N.pow_succ_r'. reflexivity.
Qed.
Lemma le_bytes_0 : forall n, le_bytes n 0 = repeat 0 n.
Proof. induction n; [reflexivity|]. cbn [le_bytes repeat]. rewrite N.div_0_l, IHn by lia. reflexivity. Qed.
Lemma rev_repeat : forall A (x : A) n, rev (repeat x n) = repeat x n.
Proof.
  intros A x. induction n; [reflexivity|]. cbn [repeat rev]. rewrite IHn.
  clear. induction n; [reflexivity|]. cbn [repeat app]. now rewrite IHn.
Qed.

(* the digest a chaining value stands for *)
Definition digest_bytes (a : algid) (h : list N) : list N :=
  concat (map (word_bytes a (wbytes a)) (firstn (a_outw (alg_of a)) h)).

Lemma hs_eq : forall a, N.to_nat (a_hs (alg_of a)) = (a_outw (alg_of a) * wbytes a)%nat.
Proof. destruct a; reflexivity. Qed.
Lemma outw_le : forall a, (a_outw (alg_of a) <= nh a)%nat.
Proof. destruct a; vm_compute; lia. Qed.
Lemma wb8 : forall a, wd a / 8 = N.of_nat (wbytes a).
Proof. destruct a; reflexivity. Qed.
Lemma stores_eq : forall a,
  a_stores (alg_of a) = map (fun i => (N.of_nat (i * wbytes a), i)) (seq 0 (a_outw (alg_of a))).
Proof. destruct a; reflexivity. Qed.

Lemma concat_map_length : forall A B (f : A -> list B) k l, (forall x, length (f x) = k) ->
  length (concat (map f l)) = (length l * k)%nat.
Proof.
  intros A B f k l H. induction l; [reflexivity|]. cbn [map concat]. rewrite app_length, H, IHl. reflexivity.
Qed.

Lemma digest_bytes_length : forall a h, hash_ok a h -> length (digest_bytes a h) = N.to_nat (a_hs (alg_of a)).
Proof.
  intros a h [H _]. unfold digest_bytes. rewrite (concat_map_length _ _ _ (wbytes a)) by (intros; apply word_bytes_length).
  rewrite firstn_length, H, hs_eq. pose proof (outw_le a). rewrite Nat.min_l by assumption. reflexivity.
Qed.

Lemma Forall_concat_map : forall A B (P : B -> Prop) (f : A -> list B) l, (forall x, Forall P (f x)) -> Forall P (concat (map f l)).
Proof. intros. induction l; [constructor|]. cbn. apply Forall_app. now split. Qed.

Lemma digest_bytes_bytes : forall a h, Forall is_byte (digest_bytes a h).
Proof. intros. apply Forall_concat_map. intros. apply word_bytes_bytes. Qed.

Lemma store_digest_ok : forall E a p hp s c l,
  get_obj s p = Some (OCtx a c) -> hash_ok a (c_hash c) ->
  get_obj s (fst hp) = Some (OBytes l) -> snd hp + a_hs (alg_of a) <= N.of_nat (length l) ->
  store_digest E a p hp s = Done tt (set_obj (fst hp) (OBytes (put l (snd hp) (digest_bytes a (c_hash c)))) s).
Proof.
  intros E a p hp s c l Hp [Hh Hw] Hl Hacc.
  assert (Hne : fst hp <> p) by congruence.
  pose proof (outw_le a) as Ho. pose proof (hs_eq a) as Hhs.
  set (pre n := concat (map (word_bytes a (wbytes a)) (firstn n (c_hash c)))).
  assert (Hpl : forall n, (n <= nh a)%nat -> length (pre n) = (n * wbytes a)%nat).
  { intros n Hn. unfold pre. rewrite (concat_map_length _ _ _ (wbytes a)) by (intros; apply word_bytes_length).
    rewrite firstn_length, Hh. f_equal. lia. }
  assert (Hps : forall n, (n < nh a)%nat -> pre (S n) = pre n ++ word_bytes a (wbytes a) (nth n (c_hash c) 0)).
  { intros n Hn. unfold pre. rewrite (firstn_snoc _ (c_hash c) n 0) by lia. rewrite map_app, concat_app. cbn [map concat].
    now rewrite app_nil_r. }
  (* one store *)
  assert (Hstep : forall n, (n < a_outw (alg_of a))%nat ->
    write (ptr_add hp (N.of_nat (n * wbytes a))) (word_bytes a (wbytes a) (nth n (c_hash c) 0))
          (set_obj (fst hp) (OBytes (put l (snd hp) (pre n))) s)
    = Done tt (set_obj (fst hp) (OBytes (put l (snd hp) (pre (S n)))) s)).
  { intros n Hn. erewrite write_ok.
    2: { cbn [ptr_add fst]. eapply get_set_same. eassumption. }
    2: { cbn [ptr_add snd]. rewrite word_bytes_length, put_length; rewrite ?Hpl; nia. }
    cbn [ptr_add fst snd]. rewrite set_set.
    replace (snd hp + N.of_nat (n * wbytes a)) with (snd hp + N.of_nat (length (pre n))) by (rewrite Hpl; lia).
    rewrite put_put by (rewrite word_bytes_length, Hpl; nia). rewrite <- Hps by lia. reflexivity. }
  assert (H0 : set_obj (fst hp) (OBytes (put l (snd hp) (pre 0%nat))) s = s).
  { unfold pre. cbn [firstn map concat]. rewrite put_nil by lia. now apply set_id. }
  unfold store_digest, digest_bytes. fold (pre (a_outw (alg_of a))). fold (wbytes a).
  destruct (unrolled E).
  - rewrite stores_eq.
    assert (G : forall n, (n <= a_outw (alg_of a))%nat ->
      mfold (fun (_ : unit) st =>
               c <- load_ctx a p ;;
               v <- lift (aget (c_hash c) (snd st)) ;;
               write (ptr_add hp (fst st)) (copy_from_uint (wbytes a) (a_big (alg_of a)) v))
        (map (fun i => (N.of_nat (i * wbytes a), i)) (seq 0 n)) tt s
      = Done tt (set_obj (fst hp) (OBytes (put l (snd hp) (pre n))) s)).
    { induction n; intros Hn; [now rewrite H0|].
      rewrite seq_snoc, map_app, mfold_app. erewrite bind_done by (apply IHn; lia).
      cbn [map mfold Nat.add fst snd]. rewrite !bind_assoc.
      erewrite bind_done by (apply load_ctx_ok; rewrite get_set_other by assumption; eassumption).
      rewrite (aget_nth _ (c_hash c) n 0) by lia. rewrite bind_assoc, (bind_done _ _ _ _ _ _ _ (lift_some _ _ _)).
      rewrite copy_from_bytes. erewrite bind_done by (apply Hstep; lia). reflexivity. }
    apply G. lia.
  - rewrite wb8.
    assert (G : forall n, (n <= a_outw (alg_of a))%nat ->
      mfold (fun hash_index i =>
               c <- load_ctx a p ;;
               v <- lift (aget (c_hash c) i) ;;
               write (ptr_add hp hash_index) (copy_from_uint (wbytes a) (a_big (alg_of a)) v) ;;;
               ret (hash_index + N.of_nat (wbytes a)))
        (seq 0 n) 0 s
      = Done (N.of_nat (n * wbytes a)) (set_obj (fst hp) (OBytes (put l (snd hp) (pre n))) s)).
    { induction n; intros Hn; [now rewrite H0|].
      rewrite seq_snoc, mfold_app. erewrite bind_done by (apply IHn; lia).
      cbn [mfold Nat.add]. rewrite !bind_assoc.
      erewrite bind_done by (apply load_ctx_ok; rewrite get_set_other by assumption; eassumption).
      rewrite (aget_nth _ (c_hash c) n 0) by lia. rewrite bind_assoc, (bind_done _ _ _ _ _ _ _ (lift_some _ _ _)).
      rewrite bind_assoc, copy_from_bytes. erewrite bind_done by (apply Hstep; lia).
      rewrite bind_ret. unfold ret. f_equal. lia. }
    erewrite bind_done by (apply G; lia). reflexivity.
Qed.

(* -------------------------------------------------------------- finalize *)

Lemma put_mid : forall x y z d, length y = length d -> put (x ++ y ++ z) (N.of_nat (length x)) d = x ++ d ++ z.
Proof.
  intros x y z d H. unfold put. rewrite Nat2N.id.
  rewrite firstn_app, Nat.sub_diag, firstn_O, app_nil_r, firstn_all. f_equal. f_equal.
  rewrite app_assoc, skipn_app, app_length, H, Nat.sub_diag. cbn [skipn].
  rewrite skipn_all2 by (rewrite app_length; lia). reflexivity.
Qed.

Definition final_size (a : algid) (c : ctx) : N := (if a_thr (alg_of a) <? c_boff c then 2 else 1) * a_bs (alg_of a).
(* the padded last block or blocks *)
Definition final_data (a : algid) (c : ctx) : list N :=
  firstn (N.to_nat (c_boff c)) (c_block c) ++ [0x80] ++
  repeat 0 (N.to_nat (final_size a c - c_boff c - 9)) ++
  word_bytes a 8 ((uadd 64 (c_count c) (c_boff c) * 8) mod 2 ^ 64).
Definition digest_fn (a : algid) (c : ctx) : list N := digest_bytes a (blocks a (c_hash c) (final_data a c)).

Lemma thr_le : forall a, a_thr (alg_of a) + 9 <= a_bs (alg_of a).
Proof. destruct a; vm_compute; discriminate. Qed.

Lemma final_size_ok : forall a c, ctx_wf a c ->
  c_boff c + 9 <= final_size a c /\ final_size a c <= 2 * a_bs (alg_of a) /\ done_bytes a (final_size a c) = final_size a c.
Proof.
  intros a c W. unfold final_size, done_bytes. pose proof (thr_le a). pose proof (wf_boff _ _ W). pose proof (bs_pos a).
  assert (9 <= a_bs (alg_of a)) by lia.
  destruct (N.ltb_spec (a_thr (alg_of a)) (c_boff c)); (split; [lia|]); (split; [lia|]); now rewrite N.div_mul by lia.
Qed.

Lemma final_data_length : forall a c, ctx_wf a c -> length (final_data a c) = N.to_nat (final_size a c).
Proof.
  intros a c W. destruct (final_size_ok a c W) as (H1 & H2 & _). pose proof (wf_len _ _ W). pose proof (bsz_N a).
  unfold final_data. rewrite !app_length, repeat_length, word_bytes_length, firstn_length. cbn [length]. lia.
Qed.

Lemma checks_pass : forall E a n, a_hs (alg_of a) <= n -> n <= ssize_max E -> final_checks E (alg_of a) (a_checks (alg_of a)) n = None.
Proof.
  intros E a n H1 H2. generalize (a_checks (alg_of a)). induction l as [|[|] l]; [reflexivity| |]; cbn [final_checks].
  - destruct (N.ltb_spec (ssize_max E) n); [lia|assumption].
  - destruct (N.ltb_spec n (a_hs (alg_of a))); [lia|assumption].
Qed.

(* the residue of the transform call made by finalize *)
Definition final_frame (E : env) (a : algid) (n : nat) (c : ctx) : frame :=
  frame_of E a n (final_data a c ++ skipn (N.to_nat (final_size a c)) (c_block c)) (final_size a c) (c_hash c).

Lemma context_finalize_frames : forall E a p hp hash_size e s c l,
  wf_state s -> get_obj s p = Some (OCtx a c) ->
  get_obj s (fst hp) = Some (OBytes l) -> snd hp + a_hs (alg_of a) <= N.of_nat (length l) ->
  a_hs (alg_of a) <= hash_size -> hash_size <= ssize_max E ->
  context_finalize E a (Some p) (Some hp) hash_size e s =
  Done 1%Z (add_frames [final_frame E a (length (resid s)) c] (set_obj p (OCtx a (zero_ctx (alg_of a)))
              (set_obj (fst hp) (OBytes (put l (snd hp) (digest_fn a c))) s))).
Proof.
  intros E a p hp hash_size e s c l WS Hp Hl Hacc H1 H2.
  assert (W : ctx_wf a c) by exact (WS _ _ Hp).
  assert (Hne : fst hp <> p) by congruence.
  pose proof (wf_len _ _ W) as Hbk. pose proof (wf_boff _ _ W) as Hbo. pose proof (bsz_N a) as HbN.
  pose proof (bs_le a) as Hbl. pose proof (ssize_ge E) as HsG. pose proof (size_mod_gt E) as Hsm.
  destruct (final_size_ok a c W) as (F1 & F2 & F3).
  pose proof (final_data_length a c W) as F4.
  unfold context_finalize. rewrite checks_pass by assumption.
  erewrite bind_done by (apply load_ctx_ok; eassumption).
  fold (final_size a c). cbn zeta.
  assert (Hus : usub (size_mod E) (final_size a c) (c_boff c) = final_size a c - c_boff c).
  { unfold usub. replace (final_size a c + (size_mod E - c_boff c)) with ((final_size a c - c_boff c) + 1 * size_mod E) by lia.
    rewrite N.mod_add by lia. apply N.mod_small. lia. }
  rewrite Hus.
  set (b := N.to_nat (c_boff c)). set (X := firstn b (c_block c)).
  set (k := N.to_nat (final_size a c - c_boff c)).
  set (Z := skipn (N.to_nat (final_size a c)) (c_block c)).
  assert (HX : length X = b) by (unfold X; rewrite firstn_length; lia).
  assert (HbX : c_boff c = N.of_nat (length X)) by lia.
  assert (HZ : skipn (b + k) (c_block c) = Z) by (unfold Z; f_equal; lia).
  rewrite splice_ok by (rewrite repeat_length; lia). rewrite (bind_done _ _ _ _ _ _ _ (lift_some _ _ _)).
  assert (P1 : put (c_block c) (c_boff c) (repeat 0 k) = X ++ [0] ++ (repeat 0 (k - 9) ++ repeat 0 8 ++ Z)).
  { unfold put. fold b. fold X. rewrite repeat_length, HZ. f_equal.
    replace k with (1 + ((k - 9) + 8))%nat at 1 by lia. rewrite !repeat_app. cbn [repeat]. rewrite <- !app_assoc. reflexivity. }
  rewrite P1, HbX. rewrite splice_ok.
  2: { rewrite !app_length, !repeat_length. cbn [length]. lia. }
  rewrite (bind_done _ _ _ _ _ _ _ (lift_some _ _ _)), put_mid by reflexivity. rewrite <- HbX.
  set (v := (uadd 64 (c_count c) (c_boff c) * 8) mod 2 ^ 64). rewrite copy_from_bytes.
  replace (X ++ [128] ++ repeat 0 (k - 9) ++ repeat 0 8 ++ Z) with ((X ++ [128] ++ repeat 0 (k - 9)) ++ repeat 0 8 ++ Z)
    by (rewrite <- !app_assoc; reflexivity).
  assert (HL : final_size a c - 8 = N.of_nat (length (X ++ [128] ++ repeat 0 (k - 9)))).
  { rewrite !app_length, repeat_length. cbn [length]. lia. }
  rewrite HL. rewrite splice_ok by (rewrite word_bytes_length, !app_length, !repeat_length; cbn [length]; lia).
  rewrite (bind_done _ _ _ _ _ _ _ (lift_some _ _ _)).
  rewrite put_mid by (rewrite repeat_length, word_bytes_length; reflexivity).
  set (block := (X ++ [128] ++ repeat 0 (k - 9)) ++ word_bytes a 8 v ++ Z).
  assert (Hblk : block = final_data a c ++ Z).
  { unfold block, final_data. fold b. fold X. fold v. replace (N.to_nat (final_size a c - c_boff c - 9)) with (k - 9)%nat by lia.
    rewrite <- !app_assoc. reflexivity. }
  erewrite bind_done by (eapply store_ctx_ok; eassumption).
  assert (HFZ : Forall is_byte Z) by (apply Forall_skipn, (wf_block _ _ W)).
  assert (HFB : Forall is_byte block).
  { rewrite Hblk. apply Forall_app. split; [|assumption]. unfold final_data. rewrite !Forall_app.
    repeat split; [apply Forall_firstn, (wf_block _ _ W)|constructor; [reflexivity|constructor]| |apply word_bytes_bytes].
    apply Forall_forall. intros x Hx. apply repeat_spec in Hx. subst x. reflexivity. }
  assert (HLB : length block = (2 * bsz a)%nat).
  { rewrite Hblk, app_length, F4. unfold Z. rewrite skipn_length. lia. }
  erewrite bind_done.
  2: { apply transform_ok; [eapply get_set_same; eassumption|apply (wf_hash _ _ W)|assumption|lia|lia]. }
  rewrite Z_of_N_ne. cbn [c_count c_hash c_boff c_block]. rewrite F3.
  assert (HFN : firstn (N.to_nat (final_size a c)) block = final_data a c).
  { rewrite Hblk, <- F4, firstn_app, Nat.sub_diag, firstn_O, app_nil_r. apply firstn_all. }
  rewrite HFN, set_set.
  erewrite bind_done.
  2: { eapply store_digest_ok.
       - rewrite get_add_frames. eapply get_set_same. eassumption.
       - cbn [c_hash]. apply blocks_ok, (wf_hash _ _ W).
       - rewrite get_add_frames, get_set_other by congruence. eassumption.
       - assumption. }
  cbn [c_hash]. rewrite set_add_frames.
  erewrite bind_done.
  2: { eapply store_ctx_ok. rewrite get_add_frames, get_set_other by congruence. eapply get_set_same. eassumption. }
  rewrite set_add_frames, (set_comm _ p (fst hp)), set_set by congruence.
  rewrite set_obj_resid, Hblk. reflexivity.
Qed.

Lemma final_frame_clean : forall E a n c, ctx_wf a c -> frame_clean a (final_frame E a n c).
Proof. intros E a n c W. apply frame_of_clean. rewrite app_length, final_data_length by assumption. lia. Qed.

Lemma context_finalize_ok : forall E a p hp hash_size e s c l,
  wf_state s -> get_obj s p = Some (OCtx a c) ->
  get_obj s (fst hp) = Some (OBytes l) -> snd hp + a_hs (alg_of a) <= N.of_nat (length l) ->
  a_hs (alg_of a) <= hash_size -> hash_size <= ssize_max E ->
  exists f, frame_clean a f /\
  context_finalize E a (Some p) (Some hp) hash_size e s =
  Done 1%Z (add_frames [f] (set_obj p (OCtx a (zero_ctx (alg_of a)))
              (set_obj (fst hp) (OBytes (put l (snd hp) (digest_fn a c))) s))).
Proof.
  intros. exists (final_frame E a (length (resid s)) c). split; [|now apply context_finalize_frames].
  apply final_frame_clean. match goal with H : wf_state s, G : get_obj s p = _ |- _ => exact (H _ _ G) end.
Qed.
