(* Facts about the machine operations. *)
From Coq Require Import Arith NArith ZArith List Lia Bool.
From Verif Require Import Words Spec Machine WordFacts.
From Verif Require Export Vocab.
Import ListNotations.
Open Scope N_scope.

Lemma algid_eqb_refl : forall a, algid_eqb a a = true.
Proof. destruct a; reflexivity. Qed.
Lemma algid_eqb_eq : forall a b, algid_eqb a b = true -> a = b.
Proof. destruct a, b; intros; reflexivity || discriminate. Qed.

Lemma replace_length : forall A (l : list A) i v, length (replace l i v) = length l.
Proof. induction l; intros [|i] v; cbn; congruence. Qed.
Lemma replace_same : forall A (l : list A) i v, (i < length l)%nat -> nth_error (replace l i v) i = Some v.
Proof. induction l; intros [|i] v H; cbn in *; try lia; [reflexivity|]. apply IHl. lia. Qed.
Lemma replace_other : forall A (l : list A) i j v, i <> j -> nth_error (replace l i v) j = nth_error l j.
Proof. induction l; intros [|i] [|j] v H; cbn; try reflexivity; [congruence|]. apply IHl. congruence. Qed.
Lemma replace_replace : forall A (l : list A) i v v', replace (replace l i v) i v' = replace l i v'.
Proof. induction l; intros [|i] v v'; cbn; try reflexivity. now rewrite IHl. Qed.
Lemma replace_comm : forall A (l : list A) i j v v', i <> j ->
  replace (replace l i v) j v' = replace (replace l j v') i v.
Proof. induction l; intros [|i] [|j] v v' H; cbn; try reflexivity; [congruence|]. rewrite IHl; congruence. Qed.
Lemma replace_id : forall A (l : list A) i v, nth_error l i = Some v -> replace l i v = l.
Proof. induction l; intros [|i] v H; cbn in *; try congruence. f_equal. now apply IHl. Qed.
Lemma replace_app_l : forall A (l l' : list A) i v, (i < length l)%nat -> replace (l ++ l') i v = replace l i v ++ l'.
Proof. induction l; intros l' [|i] v H; cbn in *; try lia; [reflexivity|]. rewrite IHl by lia. reflexivity. Qed.
Lemma replace_app_last : forall A (l : list A) x v, replace (l ++ [x]) (length l) v = l ++ [v].
Proof. induction l; intros x v; cbn; [reflexivity|]. now rewrite IHl. Qed.

(* write an object into a cell, leaving everything else *)
Definition set_obj (p : nat) (o : obj) (s : state) : state :=
  match nth_error (mem s) p with
  | Some c => set_mem (replace (mem s) p (mk_cell (live c) (knd c) o)) s
  | None => s
  end.
Definition add_frames (fs : list frame) (s : state) : state := mk_state (mem s) (tries s) (errs s) (resid s ++ fs).
Definition add_err (e : bool) (k : err) (s : state) : state :=
  mk_state (mem s) (tries s) (if e then errs s ++ [k] else errs s) (resid s).

Lemma get_obj_lt : forall s p o, get_obj s p = Some o -> (p < length (mem s))%nat.
Proof.
  unfold get_obj. intros s p o H. destruct (nth_error (mem s) p) eqn:E; [|discriminate].
  apply nth_error_Some. congruence.
Qed.

Lemma put_obj_ok : forall s p o0 o, get_obj s p = Some o0 -> put_obj p o s = Some (set_obj p o s).
Proof.
  unfold get_obj, put_obj, set_obj. intros s p o0 o H.
  destruct (nth_error (mem s) p) as [c|]; [|discriminate]. destruct (live c); [reflexivity|discriminate].
Qed.

Lemma get_set_same : forall s p o0 o, get_obj s p = Some o0 -> get_obj (set_obj p o s) p = Some o.
Proof.
  intros s p o0 o H. pose proof (get_obj_lt _ _ _ H) as L. unfold get_obj, set_obj in *.
  destruct (nth_error (mem s) p) as [c|]; [|discriminate]. destruct (live c) eqn:El; [|discriminate].
  cbn [mem set_mem]. rewrite replace_same by assumption. reflexivity.
Qed.

Lemma get_set_other : forall s p q o, p <> q -> get_obj (set_obj p o s) q = get_obj s q.
Proof.
  intros s p q o H. unfold get_obj, set_obj. destruct (nth_error (mem s) p) as [c|]; [|reflexivity].
  cbn [mem set_mem]. rewrite replace_other by assumption. reflexivity.
Qed.

Lemma set_set : forall s p o o', set_obj p o' (set_obj p o s) = set_obj p o' s.
Proof.
  intros s p o o'. unfold set_obj at 2 3.
  destruct (nth_error (mem s) p) as [c|] eqn:E.
  - assert (L : (p < length (mem s))%nat) by (apply nth_error_Some; congruence).
    unfold set_obj. cbn [mem set_mem tries errs resid]. rewrite replace_same by assumption.
    cbn [live knd]. unfold set_mem. cbn [mem tries errs resid]. now rewrite replace_replace.
  - unfold set_obj. now rewrite E.
Qed.

Lemma set_comm : forall s p q o o', p <> q -> set_obj q o' (set_obj p o s) = set_obj p o (set_obj q o' s).
Proof.
  intros s p q o o' H. unfold set_obj.
  destruct (nth_error (mem s) p) as [c|] eqn:Ep; destruct (nth_error (mem s) q) as [d|] eqn:Eq;
  cbn [mem set_mem]; rewrite ?(replace_other _ _ p q), ?(replace_other _ _ q p), ?Ep, ?Eq by congruence;
  try reflexivity.
  unfold set_mem. cbn [tries errs resid mem]. rewrite replace_comm by assumption. reflexivity.
Qed.

Lemma set_id : forall s p o, get_obj s p = Some o -> set_obj p o s = s.
Proof.
  intros s p o H. unfold get_obj, set_obj in *. destruct (nth_error (mem s) p) as [c|] eqn:E; [|reflexivity].
  destruct (live c) eqn:El; [|discriminate]. injection H as <-.
  destruct s as [m t e r]. unfold set_mem. cbn [mem tries errs resid] in *. f_equal.
  apply replace_id. rewrite E. f_equal. destruct c. cbn in *. now subst.
Qed.

Lemma set_obj_tries : forall s p o, tries (set_obj p o s) = tries s.
Proof. intros. unfold set_obj. now destruct (nth_error _ _). Qed.
Lemma set_obj_errs : forall s p o, errs (set_obj p o s) = errs s.
Proof. intros. unfold set_obj. now destruct (nth_error _ _). Qed.
Lemma set_obj_resid : forall s p o, resid (set_obj p o s) = resid s.
Proof. intros. unfold set_obj. now destruct (nth_error _ _). Qed.
Lemma set_obj_length : forall s p o, length (mem (set_obj p o s)) = length (mem s).
Proof. intros. unfold set_obj. destruct (nth_error _ _); [cbn; apply replace_length|reflexivity]. Qed.

Lemma get_add_frames : forall fs s p, get_obj (add_frames fs s) p = get_obj s p.
Proof. reflexivity. Qed.
Lemma set_add_frames : forall fs s p o, set_obj p o (add_frames fs s) = add_frames fs (set_obj p o s).
Proof. intros. unfold set_obj, add_frames. cbn [mem]. destruct (nth_error _ _); reflexivity. Qed.
Lemma add_frames_nil : forall s, add_frames [] s = s.
Proof. intros []. unfold add_frames. cbn. now rewrite app_nil_r. Qed.
Lemma add_frames_app : forall fs fs' s, add_frames fs' (add_frames fs s) = add_frames (fs ++ fs') s.
Proof. intros. unfold add_frames. cbn. now rewrite app_assoc. Qed.

(* ------------------------------------------------- running operations *)

Lemma bind_done : forall A B (m : M A) (f : A -> M B) s a s', m s = Done a s' -> bind m f s = f a s'.
Proof. intros. unfold bind. now rewrite H. Qed.
Lemma bind_ret : forall A B (a : A) (f : A -> M B) s, bind (ret a) f s = f a s.
Proof. reflexivity. Qed.
Lemma bind_assoc : forall A B C (m : M A) (f : A -> M B) (g : B -> M C) s,
  bind (bind m f) g s = bind m (fun a => bind (f a) g) s.
Proof. intros. unfold bind. destruct (m s); reflexivity. Qed.
Lemma lift_some : forall A (a : A) s, lift (Some a) s = Done a s.
Proof. reflexivity. Qed.
Lemma fail_eq : forall e k s, fail e k s = Done (-1)%Z (add_err e k s).
Proof. reflexivity. Qed.

Lemma load_ctx_ok : forall a p c s, get_obj s p = Some (OCtx a c) -> load_ctx a p s = Done c s.
Proof. intros. unfold load_ctx. rewrite H, algid_eqb_refl. reflexivity. Qed.
Lemma store_ctx_ok : forall a p c c' s, get_obj s p = Some (OCtx a c) ->
  store_ctx a p c' s = Done tt (set_obj p (OCtx a c') s).
Proof.
  intros. unfold store_ctx. rewrite H, algid_eqb_refl. erewrite put_obj_ok by eassumption. reflexivity.
Qed.

Lemma bytes_at_length : forall s p n, accessible s p n -> length (bytes_at s p n) = N.to_nat n.
Proof.
  intros s p n (l & H & L). unfold bytes_at. rewrite H, firstn_length, skipn_length. lia.
Qed.

Lemma view_ok : forall s p l, get_obj s (fst p) = Some (OBytes l) -> snd p <= N.of_nat (length l) ->
  view p s = Done (skipn (N.to_nat (snd p)) l) s.
Proof. intros s p l H L. unfold view. rewrite H. destruct (N.leb_spec (snd p) (N.of_nat (length l))); [reflexivity|lia]. Qed.

Lemma take_ok : forall n l, n <= N.of_nat (length l) -> take n l = Some (firstn (N.to_nat n) l).
Proof. intros. unfold take. destruct (N.leb_spec n (N.of_nat (length l))); [reflexivity|lia]. Qed.

(* the array after storing d at offset off *)
Definition put (l : list N) (off : N) (d : list N) : list N :=
  firstn (N.to_nat off) l ++ d ++ skipn (N.to_nat off + length d) l.

Lemma splice_ok : forall l off d, off + N.of_nat (length d) <= N.of_nat (length l) -> splice l off d = Some (put l off d).
Proof. intros. unfold splice, put. destruct (N.leb_spec (off + N.of_nat (length d)) (N.of_nat (length l))); [reflexivity|lia]. Qed.

Lemma put_length : forall l off d, off + N.of_nat (length d) <= N.of_nat (length l) -> length (put l off d) = length l.
Proof. intros. unfold put. rewrite !app_length, firstn_length, skipn_length. lia. Qed.

Lemma skipn_firstn_app : forall A (l d r : list A) n, (n <= length l)%nat ->
  firstn (length d) (skipn n (firstn n l ++ d ++ r)) = d.
Proof.
  intros. rewrite skipn_app, firstn_length, Nat.min_l by assumption.
  rewrite Nat.sub_diag. cbn [skipn]. rewrite skipn_all2 by (rewrite firstn_length; lia). cbn [app].
  rewrite firstn_app, Nat.sub_diag, firstn_O, app_nil_r. apply firstn_all.
Qed.

Lemma skipn_add : forall A (l : list A) n m, skipn n (skipn m l) = skipn (m + n) l.
Proof.
  intros A l n m. revert l. induction m; intros l; [reflexivity|].
  destruct l; [now rewrite !skipn_nil|]. cbn [skipn Nat.add]. apply IHm.
Qed.

Lemma put_put : forall l off d d', off + N.of_nat (length d) + N.of_nat (length d') <= N.of_nat (length l) ->
  put (put l off d) (off + N.of_nat (length d)) d' = put l off (d ++ d').
Proof.
  intros l off d d' H. unfold put.
  replace (N.to_nat (off + N.of_nat (length d))) with (N.to_nat off + length d)%nat by lia.
  set (o := N.to_nat off). assert (Ho : (o + length d + length d' <= length l)%nat) by lia.
  assert (F : firstn (o + length d) (firstn o l ++ d ++ skipn (o + length d) l) = firstn o l ++ d).
  { rewrite app_assoc, firstn_app.
    assert (E : length (firstn o l ++ d) = (o + length d)%nat) by (rewrite app_length, firstn_length; lia).
    rewrite <- E at 1. rewrite firstn_all, E, Nat.sub_diag, firstn_O, app_nil_r. reflexivity. }
  assert (S : skipn (o + length d + length d') (firstn o l ++ d ++ skipn (o + length d) l)
              = skipn (o + (length d + length d')) l).
  { rewrite app_assoc, skipn_app.
    assert (E : length (firstn o l ++ d) = (o + length d)%nat) by (rewrite app_length, firstn_length; lia).
    rewrite skipn_all2 by lia. cbn [app]. rewrite E, skipn_add. f_equal. lia. }
  rewrite F, S, app_length, <- !app_assoc. reflexivity.
Qed.

Lemma put_nil : forall l off, off <= N.of_nat (length l) -> put l off [] = l.
Proof. intros. unfold put. cbn [length app]. rewrite Nat.add_0_r. apply firstn_skipn. Qed.

Lemma write_ok : forall s p l d, get_obj s (fst p) = Some (OBytes l) ->
  snd p + N.of_nat (length d) <= N.of_nat (length l) ->
  write p d s = Done tt (set_obj (fst p) (OBytes (put l (snd p) d)) s).
Proof.
  intros s p l d H L. unfold write. rewrite H, splice_ok by assumption.
  erewrite put_obj_ok by eassumption. reflexivity.
Qed.

Lemma put_all : forall l d, length d = length l -> put l 0 d = d.
Proof.
  intros l d H. unfold put. cbn [N.to_nat firstn app Nat.add]. rewrite H, skipn_all2 by lia. apply app_nil_r.
Qed.

Lemma mset_ok : forall s p l v n, get_obj s (fst p) = Some (OBytes l) -> snd p + n <= N.of_nat (length l) ->
  mset p v n s = Done tt (set_obj (fst p) (OBytes (put l (snd p) (repeat v (N.to_nat n)))) s).
Proof. intros. unfold mset. apply write_ok; [assumption|]. rewrite repeat_length. lia. Qed.

Lemma mcopy_ok : forall s dst src ls ld n, get_obj s (fst src) = Some (OBytes ls) -> get_obj s (fst dst) = Some (OBytes ld) ->
  fst dst <> fst src -> snd src + n <= N.of_nat (length ls) -> snd dst + n <= N.of_nat (length ld) ->
  mcopy dst src n s = Done tt (set_obj (fst dst) (OBytes (put ld (snd dst) (bytes_at s src n))) s).
Proof.
  intros s dst src ls ld n Hs Hd Hne Ls Ld. unfold mcopy, disjoint_ranges.
  destruct (Nat.eqb_spec (fst dst) (fst src)); [contradiction|]. cbn [negb orb].
  erewrite bind_done by (eapply view_ok; [eassumption|lia]).
  rewrite take_ok by (rewrite skipn_length; lia). rewrite (bind_done _ _ _ _ _ _ _ (lift_some _ _ _)).
  unfold bytes_at. rewrite Hs. apply write_ok; [assumption|].
  rewrite firstn_length, skipn_length. lia.
Qed.

Lemma read_byte_ok : forall s p l, get_obj s (fst p) = Some (OBytes l) -> snd p < N.of_nat (length l) ->
  read_byte p s = Done (nth (N.to_nat (snd p)) l 0) s.
Proof.
  intros s p l H L. unfold read_byte. erewrite bind_done by (eapply view_ok; [eassumption|lia]).
  rewrite <- (firstn_skipn (N.to_nat (snd p)) l) at 2.
  rewrite app_nth2 by (rewrite firstn_length; lia). rewrite firstn_length, Nat.min_l by lia. rewrite Nat.sub_diag.
  destruct (skipn (N.to_nat (snd p)) l) eqn:E; [|reflexivity].
  apply (f_equal (@length N)) in E. rewrite skipn_length in E. cbn in E. lia.
Qed.

Lemma mfold_app : forall A B (f : A -> B -> M A) l l' a s,
  mfold f (l ++ l') a s = bind (mfold f l a) (mfold f l') s.
Proof.
  induction l; intros l' x s; [reflexivity|]. cbn [app mfold].
  unfold bind in *. destruct (f x a s); [|reflexivity]. apply IHl.
Qed.

(* ----------------------------------------------------- allocate, free *)

Definition new_cell (k : kind) (o : obj) (s : state) : state :=
  mk_state (mem s ++ [mk_cell true k o]) (tries s) (errs s) (resid s).
Definition tick (s : state) : state := mk_state (mem s) (S (tries s)) (errs s) (resid s).
Definition kill (p : nat) (s : state) : state :=
  match nth_error (mem s) p with
  | Some c => set_mem (replace (mem s) p (mk_cell false (knd c) (content c))) s
  | None => s
  end.

Lemma allocate_ok : forall o E s, alloc_ok E (tries s) = true ->
  allocate o E s = Done (Some (length (mem s))) (tick (new_cell Heap o s)).
Proof. intros. unfold allocate. rewrite H. reflexivity. Qed.
Lemma allocate_no : forall o E s, alloc_ok E (tries s) = false -> allocate o E s = Done None (tick s).
Proof. intros. unfold allocate. rewrite H. reflexivity. Qed.

Lemma get_new : forall k o s, get_obj (new_cell k o s) (length (mem s)) = Some o.
Proof.
  intros. unfold get_obj, new_cell. cbn [mem]. rewrite nth_error_app2 by lia. rewrite Nat.sub_diag. reflexivity.
Qed.
Lemma get_new_old : forall k o s p, (p < length (mem s))%nat -> get_obj (new_cell k o s) p = get_obj s p.
Proof. intros. unfold get_obj, new_cell. cbn [mem]. rewrite nth_error_app1 by lia. reflexivity. Qed.
