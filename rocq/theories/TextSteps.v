(* Steps of the C text whose result is that of a computation of the model, whatever it is. *)
From Coq Require Import Arith NArith ZArith List Lia Bool String.
From Verif Require Import Words Spec Machine Context Hash CText TextMd5 TextSha1 TextSha224 TextSha256 TextSha512 TextAll.
From Verif Require Import Vocab MachineFacts TransformFacts ContextFacts DigestFacts ReprFacts HashFacts
  TextFacts TextContext TextUpdate TextLoops TextTransform TextFinalize.
Import ListNotations.
Open Scope string_scope.
Open Scope list_scope.
Open Scope N_scope.

(* ------------------------------------------------------------- binding *)

Lemma bind_ext : forall A B (m : M A) (f g : A -> M B) s,
  (forall x s1, m s = Done x s1 -> f x s1 = g x s1) -> bind m f s = bind m g s.
Proof. intros A B m f g s H. unfold bind. destruct (m s) as [x s1|]; [now apply H|reflexivity]. Qed.

Lemma not_arr_ctx : forall a p, is_arr (v_ctx a p) = false.
Proof. intros a []; reflexivity. Qed.
Lemma not_arr_bytes : forall p, is_arr (v_bytes p) = false.
Proof. intros []; reflexivity. Qed.
Lemma not_arr_place : forall a p, is_arr (v_place a p) = false.
Proof. intros a [[]|]; reflexivity. Qed.
Ltac narr := first [reflexivity | apply no_error | apply not_arr_ctx | apply not_arr_bytes | apply not_arr_place].

(* arguments that are variables, addresses of variables and literals *)
Ltac hev :=
  match goal with
  | |- evs _ _ _ [] _ _ = _ => apply evs_nil
  | |- evs _ _ _ (_ :: _) _ _ = _ => eapply evs_cons; [hev | hev]
  | |- eval _ _ _ (EVar _) _ _ = _ => eapply ev_var; [bypair | narr]
  | |- eval _ _ _ (ERef _) _ _ = _ => eapply ev_ref; [bypair | narr]
  | |- eval _ _ _ _ _ _ = _ => reflexivity
  end.

Lemma ev_bin_eq : forall E P call o a b l,
  eval E P call (EBin o a b) l =
  (v <- eval E P call a l ;; w <- eval E P call b (snd v) ;; x <- lift (binary E o (fst v) (fst w)) ;; ret (x, snd w)).
Proof. reflexivity. Qed.

(* if( f( ... ) != 1 ) A else B *)
Lemma checked : forall E P call fuel T B f es l vs (m : M B) (g : B -> Z) outs (lr : B -> locals) X Y (K : flow -> locals -> M T) s,
  evs E P call es l s = Done (vs, l) s -> is_external f = false ->
  call f vs s = (r <- m ;; ret (VS R32 (g r), outs r)) s ->
  (forall r, copy_out es (outs r) l = Some (lr r)) ->
  @den E P call fuel T (SIf (EBin ONe (ECall f es) (EInt 1)) X Y) l K s =
  (r <- m ;; if negb (g r =? 1)%Z then @den E P call fuel T X (lr r) K else @den E P call fuel T Y (lr r) K) s.
Proof.
  intros E P call fuel T B f es l vs m g outs lr X Y K s H1 H2 H3 H4. rewrite den_if.
  rewrite ev_bin_eq, ev_call_eq. unfold bind in H3 |- *. rewrite H1. cbn [fst snd]. rewrite H2, H3. destruct (m s) as [r s1|]; [|reflexivity]. unfold ret. cbn [fst snd]. rewrite H4.
  unfold lift, ret. cbn [eval fst snd]. unfold ret. cbn [fst snd].
  change (binary E ONe (VS R32 (g r)) (VS R32 1)) with (Some (truth (negb (g r =? 1)%Z))). cbn [fst snd]. rewrite test_truth.
  destruct (negb (g r =? 1)%Z); reflexivity.
Qed.

(* f( ... ); *)
Lemma called : forall E P call fuel T B f es l vs (m : M B) (g : B -> Z) outs (lr : B -> locals) (K : flow -> locals -> M T) s,
  evs E P call es l s = Done (vs, l) s -> is_external f = false ->
  call f vs s = (r <- m ;; ret (VS R32 (g r), outs r)) s ->
  (forall r, copy_out es (outs r) l = Some (lr r)) ->
  @den E P call fuel T (SExpr (ECall f es)) l K s = (r <- m ;; K FNext (lr r)) s.
Proof.
  intros E P call fuel T B f es l vs m g outs lr K s H1 H2 H3 H4. rewrite den_expr.
  rewrite ev_call_eq. unfold bind at 1. rewrite H1. cbn [fst snd]. rewrite H2.
  unfold bind in H3 |- *. rewrite H3. destruct (m s) as [r s1|]; [|reflexivity]. unfold ret. cbn [fst snd]. rewrite H4. reflexivity.
Qed.

(* libcerror_error_set( error, ... ); *)
Lemma erred : forall E P call fuel T d c k e l (K : flow -> locals -> M T) s,
  error_of d c = Some k -> lget l "error" = Some (v_error e) ->
  @den E P call fuel T (SExpr (ECall "libcerror_error_set" [(EVar "error"); (EName d); (EName c)])) l K s =
  (error_set e k ;;; K FNext l) s.
Proof.
  intros E P call fuel T d c k e l K s H1 H2. rewrite den_expr.
  assert (Hn : is_null (v_error e) = Some (negb e)) by (destruct e; reflexivity).
  erewrite ev_ext; [|eapply evs_cons; [eapply ev_var; [exact H2|apply no_error]|tevs]|reflexivity|
    eapply ext_error; [exact H1|exact Hn]].
  cbn [fst snd]. unfold bind, error_set, add_err. destruct e; reflexivity.
Qed.

(* if( x != NULL ) A else B, x == NULL *)
Lemma given : forall E P call fuel T x v b l X Y (K : flow -> locals -> M T) s,
  lget l x = Some v -> is_null v = Some b ->
  @den E P call fuel T (SIf (EBin ONe (EVar x) ENull) X Y) l K s =
  if b then @den E P call fuel T Y l K s else @den E P call fuel T X l K s.
Proof.
  intros E P call fuel T x v b l X Y K s H1 H2. rewrite den_if.
  erewrite ev_bin; [|eapply ev_var; [exact H1|destruct v; try reflexivity; discriminate]|reflexivity|cbn [binary]; rewrite H2; reflexivity].
  cbn [fst snd]. rewrite test_truth. destruct b; reflexivity.
Qed.
Lemma missing : forall E P call fuel T x v b l X Y (K : flow -> locals -> M T) s,
  lget l x = Some v -> is_null v = Some b ->
  @den E P call fuel T (SIf (EBin OEq (EVar x) ENull) X Y) l K s =
  if b then @den E P call fuel T X l K s else @den E P call fuel T Y l K s.
Proof.
  intros E P call fuel T x v b l X Y K s H1 H2. rewrite den_if.
  erewrite ev_bin; [|eapply ev_var; [exact H1|destruct v; try reflexivity; discriminate]|reflexivity|cbn [binary]; rewrite H2; reflexivity].
  cbn [fst snd]. rewrite test_truth. destruct b; reflexivity.
Qed.

Lemma den_return_int : forall E P call fuel T z l (K : flow -> locals -> M T) s,
  @den E P call fuel T (SReturn (EInt z)) l K s = K (FReturn (VS R32 z)) l s.
Proof. intros. rewrite den_return. reflexivity. Qed.

(* ------------------------------------------------------------- calls of context functions *)

Lemma name_plain : forall a f, is_external (name_of a f) = false.
Proof. intros [] f; reflexivity. Qed.

(* an argument of another integer type *)
Lemma call_converted : forall E P fuel d f x y v v' w s def n1 n2 n3 n4 r,
  find_fun (p_functions P) f = Some def ->
  f_params def = [(n1, CPtr); (n2, CPtr); (n3, CInt false r); (n4, CPtr)] ->
  to_unsigned E r v = to_unsigned E r v' ->
  call_text E P fuel d f [x; y; v; w] s = call_text E P fuel d f [x; y; v'; w] s.
Proof.
  intros E P fuel [|d] f x y v v' w s def n1 n2 n3 n4 r H1 H2 H3; [reflexivity|].
  rewrite !call_text_eq, H1, !run_fun_eq, H2. cbn [bind_params convert]. rewrite H3. reflexivity.
Qed.

(* ------------------------------------------------------------- what calls leave alone *)

(* the first n objects are still there: byte arrays of the same length, contexts of the same kind *)
Definition stays (n : nat) (s s' : state) : Prop :=
  (List.length (mem s) <= List.length (mem s'))%nat /\
  forall p, (p < n)%nat ->
    (forall l, get_obj s p = Some (OBytes l) -> exists l', get_obj s' p = Some (OBytes l') /\ List.length l' = List.length l) /\
    (forall a c, get_obj s p = Some (OCtx a c) -> exists c', get_obj s' p = Some (OCtx a c')).

Lemma stays_refl : forall n s, stays n s s.
Proof. intros n s. split; [lia|]. intros p _. split; intros; eauto. Qed.
Lemma stays_trans : forall n s1 s2 s3, stays n s1 s2 -> stays n s2 s3 -> stays n s1 s3.
Proof.
  intros n s1 s2 s3 [L1 H1] [L2 H2]. split; [lia|]. intros p Hp. destruct (H1 p Hp) as [A1 B1]. destruct (H2 p Hp) as [A2 B2]. split.
  - intros l Hl. destruct (A1 _ Hl) as (l' & G & Ll). destruct (A2 _ G) as (l'' & G' & Ll'). exists l''. split; [exact G'|congruence].
  - intros a c Hc. destruct (B1 _ _ Hc) as (c' & G). exact (B2 _ _ G).
Qed.
Lemma stays_le : forall n m s s', (m <= n)%nat -> stays n s s' -> stays m s s'.
Proof. intros n m s s' H [L S]. split; [exact L|]. intros p Hp. apply S. lia. Qed.
Lemma stays_access : forall n s s' p k, stays n s s' -> (fst p < n)%nat -> accessible s p k -> accessible s' p k.
Proof.
  intros n s s' p k [_ H] Hp (l & G & L). destruct (H _ Hp) as [A _]. destruct (A _ G) as (l' & G' & E). exists l'. split; [exact G'|lia].
Qed.
Lemma stays_same : forall n s s', mem s' = mem s -> stays n s s'.
Proof.
  intros n s s' H. split; [now rewrite H|]. intros p _. unfold get_obj. rewrite H. split; intros; eauto.
Qed.
Lemma wf_same : forall s s', mem s' = mem s -> wf_state s -> wf_state s'.
Proof. intros s s' H W p o G. apply (W p o). unfold get_obj in *. now rewrite <- H. Qed.

Lemma set_stays : forall n p o o' s, get_obj s p = Some o ->
  (forall l, o = OBytes l -> exists l', o' = OBytes l' /\ List.length l' = List.length l) ->
  (forall a c, o = OCtx a c -> exists c', o' = OCtx a c') -> stays n s (set_obj p o' s).
Proof.
  intros n p o o' s G H1 H2. split.
  - unfold set_obj. destruct (nth_error (mem s) p); cbn [mem set_mem]; [rewrite replace_length|]; lia.
  - intros q _. destruct (Nat.eq_dec q p) as [->|Hne].
    + rewrite (get_set_same _ _ _ _ G), G. split.
      * intros l H. injection H as ->. destruct (H1 _ eq_refl) as (l' & -> & L). eauto.
      * intros a c H. injection H as ->. destruct (H2 _ _ eq_refl) as (c' & ->). eauto.
    + rewrite get_set_other by congruence. split; intros; eauto.
Qed.
Lemma set_wf : forall p o s, wf_state s -> obj_ok o -> wf_state (set_obj p o s).
Proof.
  intros p o s W H q o' G. destruct (Nat.eq_dec q p) as [->|Hne].
  - unfold set_obj in G. destruct (nth_error (mem s) p) as [c|] eqn:E; [|exact (W p o' G)].
    unfold get_obj, set_mem in G. cbn [mem] in G.
    rewrite replace_same in G by (apply nth_error_Some; congruence). cbn [live content] in G.
    destruct (live c); [injection G as <-; exact H|discriminate].
  - rewrite get_set_other in G by congruence. exact (W _ _ G).
Qed.

Lemma wf_frames : forall fs s, wf_state s -> wf_state (add_frames fs s).
Proof. intros fs s W p o G. rewrite get_add_frames in G. exact (W _ _ G). Qed.
Lemma stays_frames : forall n fs s s', stays n s s' -> stays n s (add_frames fs s').
Proof.
  intros n fs s s' H. eapply stays_trans; [exact H|]. apply stays_same. reflexivity.
Qed.
Lemma bytes_bytes : forall s p n, wf_state s -> Forall is_byte (bytes_at s p n).
Proof.
  intros s p n W. unfold bytes_at. destruct (get_obj s (fst p)) as [[l| |]|] eqn:G; try constructor.
  apply Forall_firstn, Forall_skipn. exact (W _ _ G).
Qed.

Definition keeps (s s' : state) : Prop := wf_state s' /\ forall n, stays n s s'.

Lemma keeps_err : forall e k s, wf_state s -> keeps s (add_err e k s).
Proof. intros e k s W. split; [now apply (wf_same s)|]. intros n. now apply stays_same. Qed.

Lemma initialize_keeps : forall E a e s r s1, wf_state s -> context_initialize E a (Some None) e s = Done r s1 ->
  wf_state s1 /\ stays (List.length (mem s)) s s1 /\
  ((fst r =? 1)%Z = true -> snd r = Some (List.length (mem s)) /\ exists c, get_obj s1 (List.length (mem s)) = Some (OCtx a c)) /\
  ((fst r =? 1)%Z = false -> snd r = None /\ mem s1 = mem s).
Proof.
  intros E a e s r s1 W H. rewrite initialize_eq in H. destruct (alloc_ok E (tries s)); injection H as <- <-; cbn [fst snd].
  - assert (M : mem (tick (new_cell Heap (OCtx a (init_ctx a)) s)) = mem s ++ [mk_cell true Heap (OCtx a (init_ctx a))]) by reflexivity.
    split; [|split; [|split]].
    + apply wf_cells. rewrite M. apply Forall_app. split; [now apply wf_cells|]. constructor; [intros _; apply init_wf|constructor].
    + split; [rewrite M, app_length; lia|]. intros p Hp. unfold get_obj. rewrite M, nth_error_app1 by lia. split; intros; eauto.
    + intros _. split; [reflexivity|]. exists (init_ctx a). unfold get_obj. rewrite M, nth_error_app2, Nat.sub_diag by lia. reflexivity.
    + discriminate.
  - split; [|split; [|split]].
    + now apply (wf_same s).
    + now apply stays_same.
    + discriminate.
    + intros _. split; reflexivity.
Qed.

Lemma update_keeps : forall E a p bp size e s r s1,
  wf_state s -> (exists c, get_obj s p = Some (OCtx a c)) ->
  (forall q, bp = Some q -> size <= ssize_max E -> accessible s q size) ->
  context_update E a (Some p) bp size e s = Done r s1 -> keeps s s1.
Proof.
  intros E a p bp size e s r s1 W (c & G) HB H.
  destruct (update_error E (Some p) bp size) as [k|] eqn:U.
  { rewrite (update_rejects _ _ _ _ _ _ _ _ U) in H. injection H as <- <-. now apply keeps_err. }
  destruct (update_error_none _ _ _ _ U) as (p' & q & _ & -> & Hs).
  destruct (context_update_ok E a p q size e s c W G (HB _ eq_refl Hs) Hs) as (fs & _ & H').
  rewrite H' in H. injection H as <- <-. split.
  - apply wf_frames, set_wf; [exact W|]. apply update_fn_wf; [exact (W _ _ G)|now apply bytes_bytes].
  - intros n. apply stays_frames. eapply set_stays; [exact G|discriminate|]. intros a' c' Hc. injection Hc as <- <-. eauto.
Qed.

Lemma finalize_keeps : forall E a p hp size e s r s1,
  wf_state s -> (exists c, get_obj s p = Some (OCtx a c)) ->
  (forall q, hp = Some q -> a_hs (alg_of a) <= size -> size <= ssize_max E -> accessible s q (a_hs (alg_of a))) ->
  context_finalize E a (Some p) hp size e s = Done r s1 -> keeps s s1.
Proof.
  intros E a p hp size e s r s1 W (c & G) HB H.
  destruct (finalize_error E a (Some p) hp size) as [k|] eqn:U.
  { rewrite (finalize_rejects _ _ _ _ _ _ _ _ U) in H. injection H as <- <-. now apply keeps_err. }
  destruct (finalize_error_none _ _ _ _ _ U) as (p' & q & _ & -> & Hs & Hm).
  destruct (HB _ eq_refl Hs Hm) as (l & Gl & Ll).
  destruct (context_finalize_ok E a p q size e s c l W G Gl Ll Hs Hm) as (f & _ & H').
  pose proof (eq_trans (eq_sym H') H) as Q. clear H H'. injection Q as <- <-.
  assert (Hl : List.length (put l (snd q) (digest_fn a c)) = List.length l).
  { apply put_length. unfold digest_fn. rewrite digest_bytes_length by (apply blocks_ok, (wf_hash _ _ (W _ _ G))). lia. }
  assert (G' : get_obj (set_obj (fst q) (OBytes (put l (snd q) (digest_fn a c))) s) p = Some (OCtx a c)).
  { rewrite get_set_other by congruence. exact G. }
  split.
  - apply wf_frames, set_wf; [apply set_wf; [exact W|]|apply zero_wf].
    apply Forall_put; [exact (W _ _ Gl)|unfold digest_fn; apply digest_bytes_bytes].
  - intros n. apply stays_frames. eapply stays_trans; [eapply set_stays; [exact Gl| |discriminate]|eapply set_stays; [exact G'|discriminate|]].
    + intros l0 Hl0. injection Hl0 as <-. eauto.
    + intros a' c' Hc. injection Hc as <- <-. eauto.
Qed.

Lemma replaced_all : forall A (P : A -> Prop) l i v, Forall P l -> P v -> Forall P (replace l i v).
Proof. intros A P l i v H Hv. revert i. induction H; intros [|i]; cbn [replace]; constructor; auto. Qed.

Lemma mfree_keeps : forall n p s s1, (n <= p)%nat -> wf_state s -> mfree p s = Done tt s1 -> wf_state s1 /\ stays n s s1.
Proof.
  intros n p s s1 Hn W H. unfold mfree in H. destruct (nth_error (mem s) p) as [[[] [] o]|] eqn:N; try discriminate. injection H as <-.
  split.
  - apply wf_cells. cbn [mem set_mem]. apply wf_cells in W. apply replaced_all; [exact W|]. intros D. discriminate.
  - split; [cbn [mem set_mem]; rewrite replace_length; lia|]. intros q Hq. unfold get_obj. cbn [mem set_mem].
    rewrite replace_other by lia. split; intros; eauto.
Qed.

Lemma free_keeps : forall a n p e s r s1, (n <= p)%nat -> wf_state s ->
  context_free a (Some (Some p)) e s = Done r s1 -> wf_state s1 /\ stays n s s1 /\ r = (1%Z, None).
Proof.
  intros a n p e s r s1 Hn W H. cbn [context_free] in H. unfold bind in H.
  destruct (mfree p s) as [[] s'|] eqn:F; [|discriminate]. injection H as <- <-.
  destruct (mfree_keeps n p s s' Hn W F). auto.
Qed.
