(* The text of libhmac_X_context_update does what Context.v says, given that the text of
   libhmac_X_context_transform does. *)
From Coq Require Import Arith NArith ZArith List Lia Bool String.
From Verif Require Import Words Spec Machine Context Hash CText TextMd5 TextSha1 TextSha224 TextSha256 TextSha512 TextAll.
From Verif Require Import Vocab MachineFacts TransformFacts ContextFacts HashFacts TextFacts TextContext.
Import ListNotations.
Open Scope string_scope.
Open Scope list_scope.
Open Scope N_scope.

(* the value [v] points to the bytes [buf]: in an array, or in the block of the context at [p] *)
Definition shown (s : state) (a : algid) (p : nat) (v : val) (buf : list N) : Prop :=
  (exists q l, v = VBytes q /\ get_obj s (fst q) = Some (OBytes l) /\ snd q <= N.of_nat (List.length l) /\
               buf = skipn (N.to_nat (snd q)) l) \/
  (exists c, v = VBlock a p 0 /\ get_obj s p = Some (OCtx a c) /\ buf = c_block c).

Definition no_refs (n : nat) : list (option val) := repeat None n.

Definition enough (fuel : nat) (size : N) : Prop := (N.to_nat size + 100 <= fuel)%nat.

Definition transform_as_modelled (E : env) (fuel d : nat) (a : algid) : Prop :=
  forall p v buf size w e s c,
    to_unsigned E RSz w = Some size ->
    get_obj s p = Some (OCtx a c) -> hash_ok a (c_hash c) -> shown s a p v buf ->
    Forall is_byte buf -> (N.to_nat size <= List.length buf)%nat -> size <= ssize_max E -> enough fuel size ->
    call_text E (text_of a (unrolled E)) fuel d (name_of a "context_transform") [VCtx a p; v; w; v_error e] s =
    (r <- transform E a (Some p) (Some buf) size e ;; ret (VS RSz r, [None; None; None; None])) s.

Notation in_text E a fuel d :=
  (@den E (text_of a (unrolled E)) (call_text E (text_of a (unrolled E)) fuel d) fuel (val * list (option val))).

Fixpoint after (n : nat) (st : stmt) : stmt :=
  match n, st with S m, SSeq _ b => after m b | _, _ => st end.

Definition update_def (a : algid) (u : bool) : fundef :=
  match a with
  | MD5 => text_libhmac_md5_context_update u
  | SHA1 => text_libhmac_sha1_context_update u
  | SHA224 => text_libhmac_sha224_context_update u
  | SHA256 => text_libhmac_sha256_context_update u
  | SHA512 => text_libhmac_sha512_context_update u
  end.

Lemma uadd_size : forall E x y, x + y < size_mod E -> uadd (bits E RSz) x y = x + y.
Proof. intros. unfold uadd. rewrite bits_size_mod. now apply N.mod_small. Qed.
Lemma usub_size : forall E x y, y <= x -> x < size_mod E -> usub (2 ^ bits E RSz) x y = x - y.
Proof.
  intros E x y H H0. rewrite bits_size_mod. unfold usub.
  replace (x + (size_mod E - y)) with ((x - y) + 1 * size_mod E) by lia.
  rewrite N.mod_add by lia. apply N.mod_small. lia.
Qed.
Lemma tu_count : forall E r n, n < 2 ^ bits E r -> to_unsigned E r (VS RSz (Z.of_N n)) = Some n.
Proof.
  intros E r n H. cbn [to_unsigned]. rewrite Z.mod_small; [now rewrite N2Z.id|].
  split; [lia|]. change 2%Z with (Z.of_N 2). rewrite <- N2Z.inj_pow. lia.
Qed.

Ltac tbefore :=
  match goal with |- den (after ?n (f_body ?d)) _ _ _ = _ => let d' := eval hnf in d in
     match d' with Build_fundef _ _ _ _ _ ?b _ => let b' := eval cbv [after] in (after n b) in change (after n (f_body d)) with b' end
  end.

Lemma done_rest : forall a size, size - done_bytes a size < a_bs (alg_of a).
Proof.
  intros a size. unfold done_bytes. pose proof (bs_pos a). pose proof (N.div_mod size (a_bs (alg_of a)) ltac:(lia)).
  pose proof (N.mod_lt size (a_bs (alg_of a)) ltac:(lia)). lia.
Qed.

Lemma text_update_tail : forall E fuel d a p bp off rem size pc e s c l0 kl ke,
  transform_as_modelled E fuel d a ->
  get_obj s p = Some (OCtx a c) -> ctx_wf a c -> c_boff c = 0 ->
  get_obj s (fst bp) = Some (OBytes l0) -> Forall is_byte l0 ->
  snd bp + off + size <= N.of_nat (List.length l0) -> off <= ssize_max E -> size <= ssize_max E -> enough fuel size ->
  kl = leave E (update_def a (unrolled E)) ->
  ke = (fun fl l => match fl with
                    | FReturn v => kl fl l
                    | FBreak => undef
                    | _ => in_text E a fuel d (f_error (update_def a (unrolled E))) l kl
                    end) ->
  in_text E a fuel d (after 6 (f_body (update_def a (unrolled E))))
      [("context", VCtx a p); ("buffer", VBytes bp); ("size", VU RSz size); ("error", v_error e);
       ("internal_context", VCtx a p); ("buffer_offset", VU RSz off);
       ("remaining_block_size", VU RSz rem); ("process_count", VS RSz pc)] ke s =
  (r <- update_tail E a p (skipn (N.to_nat (snd bp)) l0) off size e ;; ret (VS R32 r, [None; None; None; None])) s.
Proof.
  intros E fuel d a p bp off rem size pc e s c l0 kl ke TT Hp W H0 Hl HF Hacc Hos Hs Hf Hkl Hke.
  pose proof (ssize_lt E) as HssL. pose proof (size_mod_gt E) as Hsm. pose proof (bs_pos a) as Hbs. pose proof (bs_le a) as Hbl.
  pose proof (bsz_N a) as HbN. pose proof (wf_len _ _ W) as Hbk.
  assert (HFb : Forall is_byte (skipn (N.to_nat off) (skipn (N.to_nat (snd bp)) l0))) by now apply Forall_skipn, Forall_skipn.
  unfold update_tail. destruct (N.ltb_spec 0 size) as [Hpos|Hz].
  - pose proof (transform_ok E a p (skipn (N.to_nat off) (skipn (N.to_nat (snd bp)) l0)) size e s c Hp (wf_hash _ _ W) HFb
                  ltac:(rewrite !skipn_length; lia) Hs) as Hm.
    pose proof (TT p (VBytes (ptr_add bp off)) (skipn (N.to_nat off) (skipn (N.to_nat (snd bp)) l0)) size (VU RSz size) e s c (tu_same _ _ _) Hp (wf_hash _ _ W)) as Ht.
    rewrite (bind_done _ _ _ _ _ _ _ Hm) in Ht.
    assert (Ht' := Ht ltac:(left; exists (ptr_add bp off), l0; cbn [ptr_add fst snd]; repeat split; [exact Hl|lia|rewrite skipn_add; f_equal; lia])
                    HFb ltac:(rewrite !skipn_length; lia) Hs Hf).
    clear Ht. rename Ht' into Ht. unfold ret in Ht.
    set (n := done_bytes a size) in *. assert (Hn : n <= size) by apply done_le.
    rewrite !bind_assoc. erewrite bind_done by exact Hm.
    rewrite Z_of_N_ne. rewrite !bind_assoc. erewrite bind_done.
    2: { apply load_ctx_ok. rewrite get_add_frames. eapply get_set_same. eassumption. }
    cbn zeta. rewrite Z_mod_N by (unfold n in *; lia).
    rewrite !bind_assoc. erewrite bind_done.
    2: { eapply store_ctx_ok. rewrite get_add_frames. eapply get_set_same. eassumption. }
    rewrite !bind_ret. cbn [c_count c_hash c_boff c_block].
    rewrite set_add_frames, set_set.
    assert (Hus : usub (size_mod E) size (n mod size_mod E) = size - n).
    { rewrite (N.mod_small n) by lia. rewrite <- bits_size_mod. apply usub_size; lia. }
    rewrite Hus, (N.mod_small (off + n)) by lia.
    assert (T64 : to_unsigned E R64 (VS RSz (Z.of_N n)) = Some n) by (apply tu_count; cbn [bits]; lia).
    assert (TSz : to_unsigned E RSz (VS RSz (Z.of_N n)) = Some n) by (apply tu_count; rewrite bits_size_mod; lia).
    assert (Ua : uadd (bits E RSz) off n = off + n) by (apply uadd_size; lia).
    assert (Us : usub (2 ^ bits E RSz) size n = size - n) by (apply usub_size; lia).
    set (fr := frame_of _ _ _ _ _ _) in *. set (hs := blocks _ _ _) in *. clearbody fr hs.
    assert (Hr : size - n < a_bs (alg_of a)) by apply done_rest.
    destruct (N.ltb_spec 0 (size - n)) as [Hrp|Hrz].
    + assert (Hv : view (ptr_add bp (off + n)) (add_frames [fr] (set_obj p (OCtx a (mk_ctx (uadd 64 (c_count c) n) hs (c_boff c) (c_block c))) s))
                   = Done (skipn (N.to_nat (off + n)) (skipn (N.to_nat (snd bp)) l0)) (add_frames [fr] (set_obj p (OCtx a (mk_ctx (uadd 64 (c_count c) n) hs (c_boff c) (c_block c))) s))).
      { erewrite view_ok; [|cbn [ptr_add fst]; rewrite get_add_frames, get_set_other by congruence; exact Hl|cbn [ptr_add snd]; lia].
        cbn [ptr_add snd]. rewrite skipn_add. do 2 f_equal. lia. }
      assert (Hk : take (size - n) (skipn (N.to_nat (off + n)) (skipn (N.to_nat (snd bp)) l0)) = Some (firstn (N.to_nat (size - n)) (skipn (N.to_nat (off + n)) (skipn (N.to_nat (snd bp)) l0)))).
      { apply take_ok. rewrite !skipn_length. lia. }
      rewrite Hk.
      assert (Hsp : forall x, splice (c_block c) 0 (firstn (N.to_nat (size - n)) x) = Some (put (c_block c) 0 (firstn (N.to_nat (size - n)) x))).
      { intros x. apply splice_ok. rewrite firstn_length. lia. }
      rewrite (proj2 (N.leb_gt _ _)) by exact Hr.
      rewrite !bind_assoc. erewrite bind_done by (apply load_ctx_ok; tget). cbn [c_block c_count c_hash c_boff].
      rewrite !bind_assoc, (bind_done _ _ _ _ _ _ _ (lift_some _ _ _)).
      rewrite Hsp, !bind_assoc, (bind_done _ _ _ _ _ _ _ (lift_some _ _ _)).
      rewrite !bind_assoc. erewrite bind_done by (eapply store_again_frames; eassumption). rewrite bind_ret.
      unfold ret at 1.
      destruct a, e; cbn [update_def v_error] in *;
      (tbefore; repeat tst; tthen; [lia|]; repeat tst;
       (eapply do_assign; [eapply ev_call; [tevs | reflexivity | exact Ht | reflexivity] | tas |]);
       repeat tst; telse; [lia|]; repeat tst; cbn [c_block c_count c_hash c_boff bits]; fold (bits E RSz); rewrite ?Ua, ?Us).
      all: (tthen; [lia|]; repeat tst; telse; [exact Hr|]; repeat tst;
        (eapply do_else; [eapply ev_bin; [eapply ev_ext; [tevs | reflexivity | eapply ext_copy_block; [exact Hv | exact Hk | tmem | apply Hsp | tmem]] | tev | tbin] | reflexivity | ]);
        repeat tst; erewrite leave_plain by reflexivity; reflexivity).
    + rewrite bind_ret. unfold ret at 1.
      destruct a, e; cbn [update_def v_error] in *;
      (tbefore; repeat tst; tthen; [lia|]; repeat tst;
       (eapply do_assign; [eapply ev_call; [tevs | reflexivity | exact Ht | reflexivity] | tas |]);
       repeat tst; telse; [lia|]; repeat tst; cbn [c_block c_count c_hash c_boff bits]; fold (bits E RSz); rewrite ?Ua, ?Us;
       telse; [lia|]; repeat tst; erewrite leave_plain by reflexivity; reflexivity).
  - rewrite !bind_assoc, bind_ret. rewrite (proj2 (N.ltb_ge 0 size)) by lia. rewrite bind_ret. unfold ret at 1.
    clear TT.
    destruct a, e; cbn [update_def v_error] in *;
      (tbefore; repeat tst; telse; [lia|]; repeat tst; telse; [lia|]; repeat tst; erewrite leave_plain by reflexivity; reflexivity).
Qed.

(* up to the part that follows the filling of the block *)
Ltac tst_head :=
  lazymatch goal with
  | |- den (SSeq (SIf (EBin OGt (EVar "size") (EInt 0)) _ _) _) _ _ _ = _ => fail
  | |- _ => tst
  end.
Ltac totail :=
  match goal with
  | Hkl : _ = leave ?E ?def |- den ?st _ _ _ = _ =>
      match goal with |- @den _ (text_of ?a ?u) _ _ _ _ _ _ _ = _ =>
        change st with (after 6 (f_body (update_def a u)))
      end
  end.

Ltac tnum :=
  repeat match goal with H : context [a_bs (alg_of ?a)] |- _ => let n := eval cbv in (a_bs (alg_of a)) in change (a_bs (alg_of a)) with n in H end.

Lemma text_update : forall E fuel d a p bp size e s,
  transform_as_modelled E fuel d a -> wf_state s -> enough fuel size -> size < size_mod E -> enough fuel 128 ->
  (forall q, p = Some q -> exists c, get_obj s q = Some (OCtx a c)) ->
  (forall q, bp = Some q -> size <= ssize_max E -> accessible s q size) ->
  call_text E (text_of a (unrolled E)) fuel (S d) (name_of a "context_update") [v_ctx a p; v_bytes bp; VU RSz size; v_error e] s =
  (r <- context_update E a p bp size e ;; ret (VS R32 r, [None; None; None; None])) s.
Proof.
  intros E fuel d a p bp size e s TT WS Hf Hsz Hf2 Hp Hb.
  destruct p as [p|]; [|clear TT; destruct a, e, bp; (tenter; tbody; repeat tst; reflexivity)].
  destruct bp as [bp|]; [|clear TT; destruct a, e; (tenter; tbody; repeat tst; reflexivity)].
  destruct (Hp _ eq_refl) as (c & Hc). clear Hp. specialize (Hb _ eq_refl). cbn [v_ctx v_bytes]. unfold context_update.
  destruct (N.ltb_spec (ssize_max E) size) as [Hbig|Hs].
  { clear TT.
    destruct a, e; (tenter; tbody; repeat tst; tthen; [lia|]; repeat tst; reflexivity). }
  destruct (Hb Hs) as (l & Hl & Hacc). clear Hb.
  destruct (N.eqb_spec size 0) as [Hz|Hnz].
  { clear TT. destruct a, e; (tenter; tbody; repeat tst; telse; [lia|]; repeat tst; tthen; [exact Hz|]; repeat tst; reflexivity). }
  assert (W : ctx_wf a c) by exact (WS _ _ Hc).
  assert (HF : Forall is_byte l) by exact (WS _ _ Hl).
  pose proof (ssize_lt E) as HssL. pose proof (ssize_ge E) as HssG. pose proof (size_mod_gt E) as Hsm.
  pose proof (bs_pos a) as Hbs. pose proof (bs_le a) as Hbl.
  pose proof (bsz_N a) as HbN. pose proof (wf_len _ _ W) as Hbk. pose proof (wf_boff _ _ W) as Hbo.
  rewrite !bind_assoc. erewrite bind_done by (apply load_ctx_ok; eassumption).
  rewrite !bind_assoc. erewrite bind_done by (eapply view_ok; [eassumption|lia]).
  destruct (N.ltb_spec 0 (c_boff c)) as [Hbp|Hb0].
  - destruct (N.leb_spec (a_bs (alg_of a)) (c_boff c)); [lia|].
    assert (Usub : usub (2 ^ bits E RSz) (a_bs (alg_of a)) (c_boff c) = a_bs (alg_of a) - c_boff c) by (apply usub_size; lia).
    set (buf := skipn (N.to_nat (snd bp)) l) in *.
    assert (Hbuf : List.length buf = (List.length l - N.to_nat (snd bp))%nat) by apply skipn_length.
    assert (HFb : Forall is_byte buf) by now apply Forall_skipn.
    set (remN := if size <? a_bs (alg_of a) - c_boff c then size else a_bs (alg_of a) - c_boff c) in *.
    assert (Hremle : remN <= size) by (unfold remN; destruct (N.ltb_spec size (a_bs (alg_of a) - c_boff c)); lia).
    assert (Hremle2 : remN <= a_bs (alg_of a) - c_boff c) by (unfold remN; destruct (N.ltb_spec size (a_bs (alg_of a) - c_boff c)); lia).
    assert (Hk : take remN buf = Some (firstn (N.to_nat remN) buf)) by (apply take_ok; lia).
    assert (Hv : view bp s = Done buf s) by (eapply view_ok; [eassumption|lia]).
    set (block1 := put (c_block c) (c_boff c) (firstn (N.to_nat remN) buf)) in *.
    assert (Hsp : splice (c_block c) (c_boff c) (firstn (N.to_nat remN) buf) = Some block1).
    { apply splice_ok. rewrite firstn_length. lia. }
    assert (Hb1 : List.length block1 = (2 * bsz a)%nat) by (unfold block1; rewrite put_length; rewrite ?firstn_length; lia).
    assert (HF1 : Forall is_byte block1).
    { apply Forall_put; [apply (wf_block _ _ W)|]. now apply Forall_firstn. }
    cbn zeta. change (if size <? a_bs (alg_of a) - c_boff c then size else a_bs (alg_of a) - c_boff c) with remN.
    rewrite Hk, !bind_assoc, (bind_done _ _ _ _ _ _ _ (lift_some _ _ _)).
    rewrite Hsp, !bind_assoc, (bind_done _ _ _ _ _ _ _ (lift_some _ _ _)).
    rewrite !bind_assoc. erewrite bind_done by (eapply store_ctx_ok; eassumption).
    assert (Uadd : uadd (bits E RSz) (c_boff c) remN = c_boff c + remN) by (apply uadd_size; lia).
    assert (Uadd0 : uadd (bits E RSz) 0 remN = remN) by (rewrite uadd_size; lia).
    assert (Usz : usub (2 ^ bits E RSz) size remN = size - remN) by (apply usub_size; lia).
    clearbody block1.
    destruct (N.ltb_spec (c_boff c + remN) (a_bs (alg_of a))) as [Hpart|Hfull].
    + unfold bind at 1, ret at 1. clear TT.
      assert (Hrs : remN = size) by (unfold remN in *; destruct (N.ltb_spec size (a_bs (alg_of a) - c_boff c)); lia).
      clearbody remN. subst remN. unfold ret at 1.
      destruct a, e; tnum;
      (tenter; tbody; repeat tst; telse; [lia|]; repeat tst; telse; [lia|]; repeat tst; tthen; [lia|]; repeat tst; telse; [lia|]; repeat tst; rewrite ?Usub;
       tthen; [lia|]; repeat tst;
       (eapply do_else; [eapply ev_bin; [eapply ev_ext; [tevs | reflexivity | eapply ext_copy_block; [exact Hv | exact Hk | tmem | exact Hsp | tmem]] | tev | tbin] | reflexivity | ]);
       repeat tst; cbn [c_block c_count c_hash c_boff]; rewrite ?Uadd; tthen; [cbn [c_boff]; lia|]; repeat tst; erewrite leave_plain by reflexivity; reflexivity).
    + assert (Hrs : remN = a_bs (alg_of a) - c_boff c) by (unfold remN in *; destruct (N.ltb_spec size (a_bs (alg_of a) - c_boff c)); lia).
      assert (Hrs2 : a_bs (alg_of a) - c_boff c <= size) by lia.
      clearbody remN. subst remN.
      replace (c_boff c + (a_bs (alg_of a) - c_boff c)) with (a_bs (alg_of a)) in * by lia.
      set (s1 := set_obj p (OCtx a (mk_ctx (c_count c) (c_hash c) (a_bs (alg_of a)) block1)) s) in *.
      assert (Hp1 : get_obj s1 p = Some (OCtx a (mk_ctx (c_count c) (c_hash c) (a_bs (alg_of a)) block1))) by (eapply get_set_same; eassumption).
      pose proof (transform_ok E a p block1 (a_bs (alg_of a)) e s1 _ Hp1 (wf_hash _ _ W) HF1 ltac:(unfold bsz in *; lia) ltac:(lia)) as Hm.
      assert (Hdb : done_bytes a (a_bs (alg_of a)) = a_bs (alg_of a)).
      { unfold done_bytes. rewrite N.div_same by lia. lia. }
      rewrite Hdb in Hm.
      assert (Ht : forall w, to_unsigned E RSz w = Some (a_bs (alg_of a)) ->
        call_text E (text_of a (unrolled E)) fuel d (name_of a "context_transform") [VCtx a p; VBlock a p 0; w; v_error e] s1 =
        (r <- transform E a (Some p) (Some block1) (a_bs (alg_of a)) e ;; ret (VS RSz r, [None; None; None; None])) s1).
      { intros w Hw. eapply TT; try eassumption; [exact (wf_hash _ _ W) | right; exact (ex_intro _ _ (conj eq_refl (conj Hp1 eq_refl))) | unfold bsz in *; lia | lia | unfold enough in *; lia ]. }
      assert (Ht' : forall w, to_unsigned E RSz w = Some (a_bs (alg_of a)) -> _ = _) by (intros w Hw; specialize (Ht w Hw); rewrite (bind_done _ _ _ _ _ _ _ Hm) in Ht; exact Ht).
      clear Ht. rename Ht' into Ht. unfold ret in Ht.
      rewrite !bind_assoc. erewrite bind_done by exact Hm. cbn [c_count c_hash c_boff c_block] in *.
      rewrite Z_of_N_ne, Z_mod_N by lia.
      unfold s1 in *. rewrite set_set in *.
      rewrite !bind_assoc. erewrite bind_done.
      2: { apply load_ctx_ok. rewrite get_add_frames. eapply get_set_same. eassumption. }
      cbn zeta. rewrite !bind_assoc. erewrite bind_done.
      2: { eapply store_ctx_ok. rewrite get_add_frames. eapply get_set_same. eassumption. }
      cbn [c_count c_hash c_boff c_block]. rewrite set_add_frames, set_set.
      assert (T64 : to_unsigned E R64 (VS RSz (Z.of_N (a_bs (alg_of a)))) = Some (a_bs (alg_of a))) by (apply tu_count; cbn [bits]; lia).
      change (N.to_nat (a_bs (alg_of a))) with (bsz a) in *.
      assert (Hho : hash_ok a (blocks a (c_hash c) (firstn (bsz a) block1))) by (apply blocks_ok, (wf_hash _ _ W)).
      set (fr := frame_of _ _ _ _ _ _) in *. set (hs := blocks _ _ _) in *. clearbody fr hs. clear Hm Hdb s1 Hp1.
      match goal with |- _ = bind _ _ ?s1 =>
        pose proof (fun kl ke => text_update_tail E fuel d a p bp (a_bs (alg_of a) - c_boff c) (a_bs (alg_of a) - c_boff c) (size - (a_bs (alg_of a) - c_boff c))
              (Z.of_N (a_bs (alg_of a))) e s1 _ l kl ke TT ltac:(tget)) as Tail
      end.
      assert (Tail' := fun kl ke => Tail kl ke ltac:(constructor; cbn [c_hash c_boff c_block c_count]; try assumption; apply uadd_lt) eq_refl
         ltac:(rewrite get_add_frames, get_set_other by congruence; exact Hl) HF ltac:(lia) ltac:(lia) ltac:(lia) ltac:(unfold enough in *; lia)).
      clear Tail.
      destruct a, e; tnum; cbn [v_error] in *;
      (tenter; tbody; repeat tst; telse; [lia|]; repeat tst; telse; [lia|]; repeat tst; tthen; [lia|]; repeat tst; telse; [lia|]; repeat tst; rewrite ?Usub;
       telse; [lia|]; repeat tst;
       (eapply do_else; [eapply ev_bin; [eapply ev_ext; [tevs | reflexivity | eapply ext_copy_block; [exact Hv | exact Hk | tmem | exact Hsp | tmem]] | tev | tbin] | reflexivity | ]);
       repeat tst; cbn [c_block c_count c_hash c_boff]; rewrite ?Uadd; telse; [cbn [c_boff]; lia|]; repeat tst; rewrite ?Usz, ?Uadd0).
      all: (eapply do_assign; [eapply ev_call; [tevs | reflexivity | apply Ht; tunum | reflexivity] | tas |]).
      all: (repeat tst_head; cbn [c_block c_count c_hash c_boff bits]; totail).
      all: exact (Tail' _ _ Hkl Hke).
  - assert (H0 : c_boff c = 0) by lia.
    destruct a, e; (tenter; tbody; repeat tst; telse; [lia|]; repeat tst; telse; [lia|]; repeat tst; telse; [lia|]; repeat tst_head;
      totail; eapply (text_update_tail E fuel d _ p bp 0 0 size 0); try eassumption; lia).
Qed.
