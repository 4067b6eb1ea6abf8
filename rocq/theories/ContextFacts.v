(* What the context functions do to a well-formed context. *)
From Coq Require Import Arith NArith ZArith List Lia Bool.
From Verif Require Import Words Spec Tables Transform Machine Context WordFacts BlockFacts ShaFacts MachineFacts TransformFacts.
Import ListNotations.
Open Scope N_scope.
Arguments N.mul : simpl never.
Arguments N.add : simpl never.
Arguments N.sub : simpl never.
Arguments N.div : simpl never.
Arguments N.modulo : simpl never.
Arguments N.pow : simpl never.
Arguments alg_of : simpl never.

Record ctx_wf (a : algid) (c : ctx) : Prop := {
  wf_hash : hash_ok a (c_hash c);
  wf_boff : c_boff c < a_bs (alg_of a);
  wf_len : length (c_block c) = (2 * bsz a)%nat;
  wf_block : Forall is_byte (c_block c);
  wf_count : c_count c < 2 ^ 64;
}.

(* all live arrays hold bytes, all live contexts are well formed *)
Definition obj_ok (o : obj) : Prop :=
  match o with OBytes l => Forall is_byte l | OCtx a c => ctx_wf a c | OPtr _ => True end.
Definition wf_state (s : state) : Prop := forall p o, get_obj s p = Some o -> obj_ok o.

Definition frame_clean (a : algid) (f : frame) : Prop :=
  f_hash_values f = repeat 0 (nh a) /\
  exists rest, f_values f = repeat 0 (a_ncl (alg_of a)) ++ rest /\
               length rest = (a_nv (alg_of a) - a_ncl (alg_of a))%nat.

Lemma frame_of_clean : forall E a call buf size h, (N.to_nat size <= length buf)%nat ->
  frame_clean a (frame_of E a call buf size h).
Proof.
  intros E a call buf size h H. split; [reflexivity|]. cbn [f_values frame_of].
  eexists. split; [reflexivity|]. rewrite skipn_length.
  destruct (scratch_length a (N.to_nat (size / a_bs (alg_of a))) buf 0 h
    (map (stack_junk E call) (seq 0 (nh a))) (map (stack_junk E call) (seq (nh a) (a_nv (alg_of a))))) as [_ L].
  - pose proof (N.mul_div_le size (a_bs (alg_of a))). pose proof (bs_pos a). unfold bsz. nia.
  - now rewrite map_length, seq_length.
  - now rewrite map_length, seq_length.
  - rewrite L. reflexivity.
Qed.

(* ---------------------------------------------------------------- update *)

(* number of bytes of complete blocks in L bytes *)
Definition dn (a : algid) (L : nat) : nat := (L / bsz a * bsz a)%nat.

Lemma done_dn : forall a L, N.to_nat (done_bytes a (N.of_nat L)) = dn a L.
Proof.
  intros. unfold done_bytes, dn. rewrite N2Nat.inj_mul, N2Nat.inj_div, Nat2N.id. reflexivity.
Qed.
Lemma dn_le : forall a L, (dn a L <= L)%nat.
Proof. intros. unfold dn. rewrite Nat.mul_comm. apply Nat.mul_div_le. pose proof (bsz_pos a). lia. Qed.
Lemma dn_rest : forall a L, (L - dn a L = L mod bsz a)%nat.
Proof.
  intros. unfold dn. pose proof (bsz_pos a).
  pose proof (Nat.div_mod L (bsz a)). lia.
Qed.
Lemma dn_rest_lt : forall a L, (L - dn a L < bsz a)%nat.
Proof. intros. rewrite dn_rest. apply Nat.mod_upper_bound. pose proof (bsz_pos a). lia. Qed.

Definition tail_fn (a : algid) (c : ctx) (d : list N) : ctx :=
  let n := dn a (length d) in
  mk_ctx (uadd 64 (c_count c) (N.of_nat n)) (blocks a (c_hash c) (firstn n d))
         (N.of_nat (length d - n)) (put (c_block c) 0 (skipn n d)).

Definition update_fn (a : algid) (c : ctx) (d : list N) : ctx :=
  if c_boff c =? 0 then tail_fn a c d
  else
    let rem := Nat.min (bsz a - N.to_nat (c_boff c)) (length d) in
    let block1 := put (c_block c) (c_boff c) (firstn rem d) in
    if c_boff c + N.of_nat rem <? a_bs (alg_of a)
    then mk_ctx (c_count c) (c_hash c) (c_boff c + N.of_nat rem) block1
    else tail_fn a (mk_ctx (uadd 64 (c_count c) (a_bs (alg_of a)))
                           (blocks a (c_hash c) (firstn (bsz a) block1)) 0 block1)
                 (skipn rem d).

Lemma uadd_lt : forall w x y, uadd w x y < 2 ^ w.
Proof. intros. apply word_uadd. Qed.

Lemma Forall_put : forall P l off d, Forall P l -> Forall P d -> Forall P (put l off d).
Proof.
  intros P l off d Hl Hd. unfold put. rewrite !Forall_app. repeat split; try assumption.
  - now apply (Forall_slice _ P l 0).
  - rewrite Forall_forall in *. intros x Hx. apply Hl.
    rewrite <- (firstn_skipn (N.to_nat off + length d) l). apply in_or_app. now right.
Qed.
Lemma Forall_firstn : forall A (P : A -> Prop) l n, Forall P l -> Forall P (firstn n l).
Proof. intros. now apply (Forall_slice _ P l 0). Qed.
Lemma Forall_skipn : forall A (P : A -> Prop) l n, Forall P l -> Forall P (skipn n l).
Proof.
  intros A P l n Hl. rewrite Forall_forall in *. intros x Hx. apply Hl.
  rewrite <- (firstn_skipn n l). apply in_or_app. now right.
Qed.

Lemma tail_fn_wf : forall a c d, ctx_wf a c -> Forall is_byte d -> ctx_wf a (tail_fn a c d).
Proof.
  intros a c d W Hd. pose proof (dn_rest_lt a (length d)). pose proof (bsz_N a). constructor; cbn [tail_fn c_hash c_boff c_block c_count].
  - apply blocks_ok, (wf_hash _ _ W).
  - lia.
  - rewrite put_length; [apply (wf_len _ _ W)|]. rewrite (wf_len _ _ W), skipn_length. lia.
  - apply Forall_put; [apply (wf_block _ _ W)|]. now apply Forall_skipn.
  - apply uadd_lt.
Qed.

Lemma update_fn_wf : forall a c d, ctx_wf a c -> Forall is_byte d -> ctx_wf a (update_fn a c d).
Proof.
  intros a c d W Hd. unfold update_fn. pose proof (bsz_N a). pose proof (bs_pos a).
  destruct (N.eqb_spec (c_boff c) 0); [now apply tail_fn_wf|].
  set (rem := Nat.min (bsz a - N.to_nat (c_boff c)) (length d)).
  assert (Hr : length (firstn rem d) = rem) by (rewrite firstn_length; lia).
  pose proof (wf_boff _ _ W). pose proof (wf_len _ _ W).
  assert (Hlen : length (put (c_block c) (c_boff c) (firstn rem d)) = (2 * bsz a)%nat).
  { rewrite put_length; [assumption|]. lia. }
  assert (HF : Forall is_byte (put (c_block c) (c_boff c) (firstn rem d))).
  { apply Forall_put; [apply (wf_block _ _ W)|now apply Forall_firstn]. }
  destruct (N.ltb_spec (c_boff c + N.of_nat rem) (a_bs (alg_of a))).
  - constructor; cbn [c_hash c_boff c_block c_count]; try assumption; [apply (wf_hash _ _ W)|apply (wf_count _ _ W)].
  - apply tail_fn_wf; [|now apply Forall_skipn].
    constructor; cbn [c_hash c_boff c_block c_count]; try assumption; [apply blocks_ok, (wf_hash _ _ W)|apply uadd_lt].
Qed.

Lemma Z_of_N_ne : forall n, (Z.of_N n =? -1)%Z = false.
Proof. intros. apply Z.eqb_neq. lia. Qed.
Lemma Z_mod_N : forall n, n < 2 ^ 64 -> Z.to_N (Z.of_N n mod 2 ^ 64) = n.
Proof.
  intros n H. rewrite Z.mod_small; [apply N2Z.id|]. split; [lia|].
  change (2 ^ 64)%Z with (Z.of_N (2 ^ 64)). lia.
Qed.

Lemma uadd_0 : forall w x, x < 2 ^ w -> uadd w x 0 = x.
Proof. intros. unfold uadd. rewrite N.add_0_r. now apply N.mod_small. Qed.

Lemma skipn_nil_iff : forall A (l : list A) n, (length l <= n)%nat -> skipn n l = [].
Proof. intros. now apply skipn_all2. Qed.

(* the residue of the transform calls made by update *)
Definition tail_frames (E : env) (a : algid) (n : nat) (buf : list N) (size : N) (h : list N) : list frame :=
  if 0 <? size then [frame_of E a n buf size h] else [].
Definition update_frames (E : env) (a : algid) (n : nat) (c : ctx) (buf : list N) (size : N) : list frame :=
  if size =? 0 then []
  else if 0 <? c_boff c then
    let rem := if size <? a_bs (alg_of a) - c_boff c then size else a_bs (alg_of a) - c_boff c in
    let block1 := put (c_block c) (c_boff c) (firstn (N.to_nat rem) buf) in
    if c_boff c + rem <? a_bs (alg_of a) then []
    else frame_of E a n block1 (a_bs (alg_of a)) (c_hash c) ::
         tail_frames E a (S n) (skipn (N.to_nat rem) buf) (size - rem) (blocks a (c_hash c) (firstn (bsz a) block1))
  else tail_frames E a n buf size (c_hash c).
Definition view_of (s : state) (p : ptr) : list N :=
  match get_obj s (fst p) with Some (OBytes l) => skipn (N.to_nat (snd p)) l | _ => [] end.

Lemma update_tail_frames : forall E a p buf off size e s c,
  get_obj s p = Some (OCtx a c) -> ctx_wf a c -> c_boff c = 0 ->
  Forall is_byte buf -> off + size <= N.of_nat (length buf) -> off <= ssize_max E -> size <= ssize_max E ->
  update_tail E a p buf off size e s =
  Done 1%Z (add_frames (tail_frames E a (length (resid s)) (skipn (N.to_nat off) buf) size (c_hash c)) (set_obj p (OCtx a (tail_fn a c (slice buf (N.to_nat off) (N.to_nat size)))) s)).
Proof.
  intros E a p buf off size e s c Hp W H0 HF Hl Hos Hs.
  pose proof (ssize_lt E) as HssL. pose proof (size_mod_gt E) as Hsm. pose proof (bs_pos a) as Hbs. pose proof (bs_le a) as Hbl.
  pose proof (bsz_N a) as HbN. pose proof (wf_len _ _ W) as Hbk.
  set (d := slice buf (N.to_nat off) (N.to_nat size)).
  assert (Hd : length d = N.to_nat size) by (apply slice_length; lia).
  unfold update_tail, tail_frames. destruct (N.ltb_spec 0 size) as [Hpos|Hz].
  - assert (HFb : Forall is_byte (skipn (N.to_nat off) buf)) by now apply Forall_skipn.
    rewrite bind_assoc. erewrite bind_done.
    2: { apply transform_ok; try eassumption; [apply (wf_hash _ _ W)|rewrite skipn_length; lia]. }
    rewrite Z_of_N_ne.
    set (n := done_bytes a size). assert (Hn : n <= size) by apply done_le.
    assert (Hnd : N.to_nat n = dn a (length d)) by (rewrite Hd, <- done_dn; unfold n; f_equal; f_equal; lia).
    rewrite bind_assoc. erewrite bind_done.
    2: { apply load_ctx_ok. rewrite get_add_frames. eapply get_set_same. eassumption. }
    cbn zeta. rewrite Z_mod_N by (unfold n in *; lia).
    rewrite bind_assoc. erewrite bind_done.
    2: { eapply store_ctx_ok. rewrite get_add_frames. eapply get_set_same. eassumption. }
    rewrite bind_ret. cbn [c_count c_hash c_boff c_block].
    rewrite set_add_frames, set_set.
    assert (Hus : usub (size_mod E) size (n mod size_mod E) = size - n).
    { unfold usub. rewrite (N.mod_small n) by lia.
      replace (size + (size_mod E - n)) with ((size - n) + 1 * size_mod E) by lia.
      rewrite N.mod_add by lia. apply N.mod_small. lia. }
    rewrite Hus, (N.mod_small (off + n)) by lia.
    assert (Hrest : size - n = N.of_nat (length d - dn a (length d))) by (rewrite <- Hnd, Hd; lia).
    assert (Hblk : firstn (N.to_nat n) (skipn (N.to_nat off) buf) = firstn (dn a (length d)) d).
    { rewrite <- Hnd. unfold d, slice. rewrite firstn_firstn. f_equal. lia. }
    destruct (N.ltb_spec 0 (size - n)) as [Hr|Hr].
    + pose proof (dn_rest_lt a (length d)).
      destruct (N.leb_spec (a_bs (alg_of a)) (size - n)); [lia|].
      erewrite bind_done.
      2: { apply load_ctx_ok. rewrite get_add_frames. eapply get_set_same. eassumption. }
      rewrite take_ok by (rewrite skipn_length; lia).
      rewrite (bind_done _ _ _ _ _ _ _ (lift_some _ _ _)). cbn [c_block c_count c_hash c_boff].
      assert (Hd2 : firstn (N.to_nat (size - n)) (skipn (N.to_nat (off + n)) buf) = skipn (dn a (length d)) d).
      { rewrite <- Hnd. unfold d, slice. rewrite skipn_firstn_comm, skipn_add. f_equal; [lia|]. f_equal. lia. }
      rewrite Hd2. rewrite splice_ok by (rewrite skipn_length, Hbk; lia).
      rewrite (bind_done _ _ _ _ _ _ _ (lift_some _ _ _)).
      erewrite bind_done.
      2: { eapply store_ctx_ok. rewrite get_add_frames. eapply get_set_same. eassumption. }
      rewrite set_add_frames, set_set. unfold ret, tail_fn. rewrite Hblk, <- Hrest, <- Hnd, N2Nat.id. reflexivity.
    + unfold ret, tail_fn. rewrite Hblk, <- Hnd, N2Nat.id, H0.
      rewrite (@skipn_all2 _ (N.to_nat n) d) by lia. rewrite put_nil by lia. replace (N.of_nat (length d - N.to_nat n)) with 0 by lia. reflexivity.
  - rewrite bind_ret. destruct (N.ltb_spec 0 size); [lia|].
    rewrite add_frames_nil. unfold ret. f_equal. symmetry.
    replace (tail_fn a c d) with c; [now apply set_id|].
    assert (E0 : length d = 0%nat) by lia. unfold tail_fn. rewrite E0.
    unfold dn. rewrite Nat.div_0_l, Nat.mul_0_l by (pose proof (bsz_pos a); lia).
    destruct d; [|discriminate]. cbn [firstn skipn length Nat.sub]. rewrite uadd_0 by apply (wf_count _ _ W).
    rewrite put_nil by lia. unfold blocks. cbn. destruct c. cbn in *. now subst.
Qed.

Lemma context_update_frames : forall E a p bp size e s c,
  wf_state s -> get_obj s p = Some (OCtx a c) -> accessible s bp size -> size <= ssize_max E ->
  context_update E a (Some p) (Some bp) size e s =
  Done 1%Z (add_frames (update_frames E a (length (resid s)) c (view_of s bp) size) (set_obj p (OCtx a (update_fn a c (bytes_at s bp size))) s)).
Proof.
  intros E a p bp size e s c WS Hp (l & Hl & Hacc) Hs.
  assert (W : ctx_wf a c) by exact (WS _ _ Hp).
  assert (HF : Forall is_byte l) by exact (WS _ _ Hl).
  pose proof (ssize_lt E) as HssL. pose proof (ssize_ge E) as HssG.
  pose proof (size_mod_gt E) as Hsm. pose proof (bs_pos a) as Hbs. pose proof (bs_le a) as Hbl.
  pose proof (bsz_N a) as HbN. pose proof (wf_len _ _ W) as Hbk. pose proof (wf_boff _ _ W) as Hbo.
  assert (Hba : bytes_at s bp size = slice (skipn (N.to_nat (snd bp)) l) 0 (N.to_nat size)).
  { unfold bytes_at. rewrite Hl. reflexivity. }
  assert (Hdl : length (bytes_at s bp size) = N.to_nat size) by (apply bytes_at_length; exists l; split; assumption).
  unfold context_update, update_frames. destruct (N.ltb_spec (ssize_max E) size); [lia|].
  destruct (N.eqb_spec size 0) as [Hz|Hnz].
  - rewrite add_frames_nil. unfold ret. f_equal. symmetry.
    replace (update_fn a c (bytes_at s bp size)) with c; [now apply set_id|].
    assert (Hd0 : bytes_at s bp size = []) by (destruct (bytes_at s bp size); [reflexivity|cbn in Hdl; lia]).
    rewrite Hd0. unfold update_fn.
    destruct (N.eqb_spec (c_boff c) 0) as [H0|H0].
    + unfold tail_fn, dn. cbn [length]. rewrite Nat.div_0_l, Nat.mul_0_l by (pose proof (bsz_pos a); lia).
      cbn [firstn skipn length Nat.sub]. rewrite uadd_0 by apply (wf_count _ _ W).
      rewrite put_nil by lia. unfold blocks. cbn. destruct c. cbn in *. now subst.
    + cbn [length]. rewrite Nat.min_0_r. cbn [firstn]. rewrite N.add_0_r.
      destruct (N.ltb_spec (c_boff c) (a_bs (alg_of a))); [|lia]. rewrite put_nil by lia. now destruct c.
  - erewrite bind_done by (apply load_ctx_ok; eassumption).
    erewrite bind_done by (eapply view_ok; [eassumption|lia]).
    assert (Hview : view_of s bp = skipn (N.to_nat (snd bp)) l) by (unfold view_of; rewrite Hl; reflexivity).
    rewrite Hview. set (buf := skipn (N.to_nat (snd bp)) l) in *.
    assert (Hbuf : length buf = (length l - N.to_nat (snd bp))%nat) by apply skipn_length.
    assert (HFb : Forall is_byte buf) by now apply Forall_skipn.
    unfold update_fn. cbn zeta. destruct (N.ltb_spec 0 (c_boff c)) as [Hb|Hb].
    + destruct (N.eqb_spec (c_boff c) 0); [lia|].
      destruct (N.leb_spec (a_bs (alg_of a)) (c_boff c)); [lia|].
      set (remN := if size <? a_bs (alg_of a) - c_boff c then size else a_bs (alg_of a) - c_boff c).
      set (rem := Nat.min (bsz a - N.to_nat (c_boff c)) (length (bytes_at s bp size))).
      assert (Hrem : remN = N.of_nat rem).
      { unfold remN, rem. rewrite Hdl. destruct (N.ltb_spec size (a_bs (alg_of a) - c_boff c)); lia. }
      assert (Hremle : remN <= size) by (unfold remN; destruct (N.ltb_spec size (a_bs (alg_of a) - c_boff c)); lia).
      assert (Hremle2 : remN <= a_bs (alg_of a) - c_boff c) by (unfold remN; destruct (N.ltb_spec size (a_bs (alg_of a) - c_boff c)); lia).
      rewrite take_ok by lia. rewrite (bind_done _ _ _ _ _ _ _ (lift_some _ _ _)).
      assert (Hfd : firstn (N.to_nat remN) buf = firstn rem (bytes_at s bp size)).
      { rewrite Hba. unfold slice. cbn [skipn]. rewrite firstn_firstn. f_equal. lia. }
      rewrite Hfd.
      assert (Hfl : length (firstn rem (bytes_at s bp size)) = rem) by (rewrite firstn_length; lia).
      rewrite splice_ok by lia. rewrite (bind_done _ _ _ _ _ _ _ (lift_some _ _ _)).
      set (block1 := put (c_block c) (c_boff c) (firstn rem (bytes_at s bp size))).
      assert (Hb1 : length block1 = (2 * bsz a)%nat) by (unfold block1; rewrite put_length; lia).
      assert (HF1 : Forall is_byte block1).
      { apply Forall_put; [apply (wf_block _ _ W)|]. apply Forall_firstn. rewrite Hba. now apply Forall_slice. }
      erewrite bind_done by (eapply store_ctx_ok; eassumption).
      rewrite <- Hrem.
      destruct (N.ltb_spec (c_boff c + remN) (a_bs (alg_of a))) as [Hsm'|Hfull].
      * rewrite add_frames_nil. reflexivity.
      * erewrite bind_done.
        2: { apply transform_ok; [eapply get_set_same; eassumption|apply (wf_hash _ _ W)|assumption|unfold bsz in *; lia|lia]. }
        rewrite Z_of_N_ne. cbn [c_count c_hash c_boff c_block].
        assert (Hdb : done_bytes a (a_bs (alg_of a)) = a_bs (alg_of a)).
        { unfold done_bytes. rewrite N.div_same by lia. lia. }
        rewrite Hdb, Z_mod_N by lia. rewrite set_set.
        erewrite bind_done.
        2: { apply load_ctx_ok. rewrite get_add_frames. eapply get_set_same. eassumption. }
        erewrite bind_done.
        2: { eapply store_ctx_ok. rewrite get_add_frames. eapply get_set_same. eassumption. }
        cbn [c_count c_hash c_boff c_block]. rewrite set_add_frames, set_set. change (N.to_nat (a_bs (alg_of a))) with (bsz a).
        set (c1 := mk_ctx _ _ 0 block1).
        assert (W1 : ctx_wf a c1).
        { constructor; unfold c1; cbn [c_hash c_boff c_block c_count]; try assumption; [apply blocks_ok, (wf_hash _ _ W)|apply uadd_lt]. }
        set (s1 := add_frames _ _).
        rewrite (update_tail_frames E a p buf remN (size - remN) e s1 c1); try assumption; try lia; [|unfold s1; rewrite get_add_frames; eapply get_set_same; eassumption|reflexivity].
        assert (Hr1 : length (resid s1) = S (length (resid s))).
        { unfold s1. cbn [add_frames resid]. rewrite !set_obj_resid, app_length. cbn [length]. lia. }
        rewrite Hr1. unfold s1. rewrite set_add_frames, set_set, add_frames_app. cbn [app].
        rewrite !set_obj_resid. unfold c1 at 1. cbn [c_hash].
        do 5 f_equal. rewrite Hba. unfold slice. cbn [skipn]. rewrite skipn_firstn_comm. f_equal; [lia|]. f_equal. lia.
    + assert (H0 : c_boff c = 0) by lia.
      destruct (N.eqb_spec (c_boff c) 0); [|lia]. rewrite Hba.
      rewrite (update_tail_frames E a p buf 0 size e s c) by (assumption || lia). reflexivity.
Qed.

Lemma tail_frames_clean : forall E a n buf size h, (N.to_nat size <= length buf)%nat ->
  Forall (frame_clean a) (tail_frames E a n buf size h).
Proof.
  intros. unfold tail_frames. destruct (0 <? size); [|apply Forall_nil].
  apply Forall_cons; [now apply frame_of_clean|apply Forall_nil].
Qed.

Lemma update_frames_clean : forall E a n c buf size, ctx_wf a c -> (N.to_nat size <= length buf)%nat ->
  Forall (frame_clean a) (update_frames E a n c buf size).
Proof.
  intros E a n c buf size W H. pose proof (wf_len _ _ W) as Hbk. pose proof (wf_boff _ _ W) as Hbo. pose proof (bsz_N a) as HbN.
  unfold update_frames. destruct (size =? 0); [apply Forall_nil|].
  destruct (0 <? c_boff c); [|now apply tail_frames_clean].
  set (rem := if size <? a_bs (alg_of a) - c_boff c then size else a_bs (alg_of a) - c_boff c).
  assert (Hr : rem <= size /\ rem <= a_bs (alg_of a) - c_boff c).
  { unfold rem. destruct (N.ltb_spec size (a_bs (alg_of a) - c_boff c)); lia. }
  cbn zeta. destruct (c_boff c + rem <? a_bs (alg_of a)); [apply Forall_nil|]. apply Forall_cons.
  - apply frame_of_clean. rewrite put_length; [lia|]. rewrite firstn_length. lia.
  - apply tail_frames_clean. rewrite skipn_length. lia.
Qed.

Lemma context_update_ok : forall E a p bp size e s c,
  wf_state s -> get_obj s p = Some (OCtx a c) -> accessible s bp size -> size <= ssize_max E ->
  exists fs, Forall (frame_clean a) fs /\
  context_update E a (Some p) (Some bp) size e s =
  Done 1%Z (add_frames fs (set_obj p (OCtx a (update_fn a c (bytes_at s bp size))) s)).
Proof.
  intros E a p bp size e s c WS Hp Hacc Hs. exists (update_frames E a (length (resid s)) c (view_of s bp) size).
  split; [|now apply context_update_frames]. apply update_frames_clean; [exact (WS _ _ Hp)|].
  destruct Hacc as (l & Hl & Hn). unfold view_of. rewrite Hl, skipn_length. lia.
Qed.
