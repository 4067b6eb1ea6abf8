(* Two runs on memories of the same layout leave the same record: the functions on memory. *)
From Coq Require Import Arith NArith ZArith List Bool Lia.
From Verif Require Import Words Tables Transform Machine Context Hash Trace TraceVocab TraceFacts.
Import ListNotations.
Open Scope N_scope.

Definition mrel {A} (R : A -> A -> Prop) (m m' : M A) : Prop := forall s s', same_layout s s' ->
  match m s, m' s' with
  | Done a s1, Done a' s1' => R a a' /\ same_layout s1 s1'
  | Undef, Undef => True
  | _, _ => False
  end.
Definition rel {A} (R : A -> A -> Prop) (m m' : T A) : Prop := forall s s', same_layout s s' ->
  match m s, m' s' with
  | TDone t a s1, TDone t' a' s1' => t = t' /\ R a a' /\ same_layout s1 s1'
  | TUndef, TUndef => True
  | _, _ => False
  end.

Definition cell_same (c c' : cell) : Prop := live c = live c' /\ knd c = knd c' /\ same_but_bytes (content c) (content c').
Definition oopt {A} (R : A -> A -> Prop) (x y : option A) : Prop :=
  match x, y with Some a, Some b => R a b | None, None => True | _, _ => False end.
Lemma nth_same : forall m m' p, Forall2 cell_same m m' -> oopt cell_same (nth_error m p) (nth_error m' p).
Proof.
  intros m m' p H. revert p. induction H as [|c c' m m' Hc H IH]; intros [|p]; cbn; auto.
Qed.
Lemma length_same : forall s s', same_layout s s' -> length (mem s) = length (mem s').
Proof. intros s s' [H _]. induction H; cbn; congruence. Qed.
Lemma get_same : forall s s' p, same_layout s s' -> oopt same_but_bytes (get_obj s p) (get_obj s' p).
Proof.
  intros s s' p [H _]. unfold get_obj. pose proof (nth_same _ _ p H) as X. unfold oopt in *.
  destruct (nth_error (mem s) p) as [c|], (nth_error (mem s') p) as [c'|]; try contradiction; [|exact I].
  destruct X as (Hl & _ & Hc). rewrite <- Hl. destruct (live c); [exact Hc | exact I].
Qed.
Lemma replace_same : forall m m' p c c', Forall2 cell_same m m' -> cell_same c c' -> Forall2 cell_same (replace m p c) (replace m' p c').
Proof.
  intros m m' p c c' H Hc. revert p. induction H as [|x x' m m' Hx H IH]; intros [|p]; cbn; constructor; auto.
Qed.
Lemma put_same : forall s s' p o o', same_layout s s' -> same_but_bytes o o' -> oopt same_layout (put_obj p o s) (put_obj p o' s').
Proof.
  intros s s' p o o' [H Ht] Ho. unfold put_obj. pose proof (nth_same _ _ p H) as X. unfold oopt in *.
  destruct (nth_error (mem s) p) as [c|], (nth_error (mem s') p) as [c'|]; try contradiction; [|exact I].
  destruct X as (Hl & Hk & Hc). rewrite <- Hl. destruct (live c); [|exact I].
  split; [|exact Ht]. cbn [mem set_mem]. apply replace_same; [exact H|]. repeat split; assumption.
Qed.

(* ------------------------------------------------------------------ the steps of the model *)

Lemma mr_lift : forall {A} (R : A -> A -> Prop) o o', oopt R o o' -> mrel R (lift o) (lift o').
Proof. intros A R [a|] [a'|] H s s' L; cbn in H |- *; try contradiction; auto. Qed.
Lemma mr_ret : forall {A} (R : A -> A -> Prop) a a', R a a' -> mrel R (ret a) (ret a').
Proof. intros A R a a' H s s' L. cbn. auto. Qed.
Lemma mr_bind : forall {A B} (R : A -> A -> Prop) (S : B -> B -> Prop) m m' k k',
  mrel R m m' -> (forall a a', R a a' -> mrel S (k a) (k' a')) -> mrel S (bind m k) (bind m' k').
Proof.
  intros A B R S m m' k k' Hm Hk s s' L. specialize (Hm s s' L). unfold bind.
  destruct (m s) as [a s1|], (m' s') as [a' s1'|]; try contradiction; [|exact I]. destruct Hm as [X Y]. exact (Hk a a' X _ _ Y).
Qed.
Lemma mr_calls : mrel any (fun s => Done (length (resid s)) s) (fun s => Done (length (resid s)) s).
Proof. intros s s' L. split; [exact I | exact L]. Qed.
Lemma mr_log : forall f f', mrel any (log_frame f) (log_frame f').
Proof. intros f f' s s' L. split; [exact I | exact L]. Qed.
Lemma mr_error_set : forall e k, mrel any (error_set e k) (error_set e k).
Proof. intros e k s s' L. split; [exact I | exact L]. Qed.
Definition ctx_same (c c' : ctx) : Prop :=
  c_count c = c_count c' /\ c_boff c = c_boff c' /\ leq (c_hash c) (c_hash c') /\ leq (c_block c) (c_block c').
Lemma mr_load : forall a p, mrel ctx_same (load_ctx a p) (load_ctx a p).
Proof.
  intros a p s s' L. unfold load_ctx. pose proof (get_same s s' p L) as X. unfold oopt in X.
  destruct (get_obj s p) as [[l|b c|q]|], (get_obj s' p) as [[l'|b' c'|q']|]; try contradiction; try exact I.
  destruct X as (<- & X1 & X2 & X3 & X4). destruct (algid_eqb a b); [|exact I]. repeat split; try assumption; exact (proj1 L) || exact (proj2 L).
Qed.
Lemma mr_store : forall a p c c', ctx_same c c' -> mrel any (store_ctx a p c) (store_ctx a p c').
Proof.
  intros a p c c' H s s' L. unfold store_ctx. pose proof (get_same s s' p L) as X. unfold oopt in X.
  destruct (get_obj s p) as [[l|b d|q]|], (get_obj s' p) as [[l'|b' d'|q']|]; try contradiction; try exact I.
  destruct X as (<- & _). destruct (algid_eqb a b); [|exact I].
  assert (same_but_bytes (OCtx a c) (OCtx a c')) as Z by (destruct H as (? & ? & ? & ?); cbn; auto).
  pose proof (put_same s s' p _ _ L Z) as Y. unfold oopt in Y.
  destruct (put_obj p (OCtx a c) s), (put_obj p (OCtx a c') s'); try contradiction; [split; [exact I | exact Y] | exact I].
Qed.
Lemma leq_skipn : forall {A} n (l l' : list A), leq l l' -> leq (skipn n l) (skipn n l').
Proof. intros A n l l' H. unfold leq in *. rewrite !skipn_length. lia. Qed.
Lemma mr_view : forall p, mrel leq (view p) (view p).
Proof.
  intros p s s' L. unfold view. pose proof (get_same s s' (fst p) L) as X. unfold oopt in X.
  destruct (get_obj s (fst p)) as [[l|b c|q]|], (get_obj s' (fst p)) as [[l'|b' c'|q']|]; try contradiction; try exact I.
  cbn in X. rewrite <- X. destruct (snd p <=? N.of_nat (length l)); [|exact I]. split; [apply leq_skipn; exact X | exact L].
Qed.
Lemma take_leq : forall n l l', leq l l' -> oopt leq (take n l) (take n l').
Proof.
  intros n l l' H. unfold take, oopt. unfold leq in *. rewrite <- H. destruct (n <=? N.of_nat (length l)); [|exact I].
  rewrite !firstn_length. lia.
Qed.
Lemma splice_leq : forall l l' o d d', leq l l' -> leq d d' -> oopt leq (splice l o d) (splice l' o d').
Proof.
  intros l l' o d d' H Hd. unfold splice, oopt. unfold leq in *. rewrite <- H, <- Hd.
  destruct (o + N.of_nat (length d) <=? N.of_nat (length l)); [|exact I].
  rewrite !app_length, !firstn_length, !skipn_length. lia.
Qed.
Lemma clear_first_leq : forall k l l', leq l l' -> oopt leq (clear_first k l) (clear_first k l').
Proof.
  intros k l l' H. unfold clear_first, oopt, leq in *. rewrite <- H. destruct (Nat.leb k (length l)); [|exact I].
  rewrite !app_length, !skipn_length, !repeat_length. lia.
Qed.
Lemma mr_write : forall p d d', leq d d' -> mrel any (write p d) (write p d').
Proof.
  intros p d d' H s s' L. unfold write. pose proof (get_same s s' (fst p) L) as X. unfold oopt in X.
  destruct (get_obj s (fst p)) as [[l|b c|q]|], (get_obj s' (fst p)) as [[l'|b' c'|q']|]; try contradiction; try exact I.
  cbn in X. pose proof (splice_leq l l' (snd p) d d' X H) as Y. unfold oopt in Y.
  destruct (splice l (snd p) d) as [x|], (splice l' (snd p) d') as [x'|]; try contradiction; [|exact I].
  pose proof (put_same s s' (fst p) (OBytes x) (OBytes x') L Y) as Z. unfold oopt in Z.
  destruct (put_obj (fst p) (OBytes x) s), (put_obj (fst p) (OBytes x') s'); try contradiction; [split; [exact I | exact Z] | exact I].
Qed.
Lemma mr_mset : forall p v n, mrel any (mset p v n) (mset p v n).
Proof. intros. apply mr_write. reflexivity. Qed.
Lemma mr_mcopy : forall d s n, mrel any (mcopy d s n) (mcopy d s n).
Proof.
  intros. unfold mcopy. destruct (disjoint_ranges d s n); [|intros x y L; exact I].
  eapply mr_bind; [apply mr_view|]. intros. eapply mr_bind; [apply mr_lift, take_leq; eassumption|]. intros. apply mr_write. assumption.
Qed.
Lemma mr_read_byte : forall p, mrel any (read_byte p) (read_byte p).
Proof.
  intros. unfold read_byte. eapply mr_bind; [apply mr_view|]. intros a a' H. apply mr_lift.
  pose proof (aget_leq a a' 0 H) as X. unfold aget in X. unfold oopt. destruct (nth_error a 0), (nth_error a' 0); auto.
Qed.
Lemma mr_write_byte : forall p b b', mrel any (write_byte p b) (write_byte p b').
Proof. intros. apply mr_write. reflexivity. Qed.
Lemma mr_mfree : forall p, mrel any (mfree p) (mfree p).
Proof.
  intros p s s' [H Ht]. unfold mfree. pose proof (nth_same _ _ p H) as X. unfold oopt in X.
  destruct (nth_error (mem s) p) as [[[|] [|] o]|], (nth_error (mem s') p) as [[[|] [|] o']|]; try contradiction; try exact I;
    destruct X as (Hl & Hk & Hc); try discriminate Hl; try discriminate Hk.
  split; [exact I|]. split; [|exact Ht]. cbn [mem set_mem]. apply replace_same; [exact H|]. repeat split; assumption.
Qed.
Lemma mr_pop : forall p, mrel any (pop_local p) (pop_local p).
Proof.
  intros p s s' [H Ht]. unfold pop_local. pose proof (nth_same _ _ p H) as X. unfold oopt in X.
  destruct (nth_error (mem s) p) as [[[|] [|] o]|], (nth_error (mem s') p) as [[[|] [|] o']|]; try contradiction; try exact I;
    destruct X as (Hl & Hk & Hc); try discriminate Hl; try discriminate Hk.
  split; [exact I|]. split; [|exact Ht]. cbn [mem set_mem]. apply replace_same; [exact H|]. repeat split; assumption.
Qed.
Lemma app_same : forall m m' c c', Forall2 cell_same m m' -> cell_same c c' -> Forall2 cell_same (m ++ [c]) (m' ++ [c']).
Proof. intros. apply Forall2_app; [assumption|]. constructor; [assumption | constructor]. Qed.
Lemma mr_push : forall E E' (n : N),
  mrel eq (fun s => push_local (OBytes (junk_bytes E (length (mem s)) n)) s) (fun s => push_local (OBytes (junk_bytes E' (length (mem s)) n)) s).
Proof.
  intros E E' n s s' L. unfold push_local. split; [apply length_same; exact L|]. destruct L as [H Ht]. split; [|exact Ht].
  cbn [mem set_mem]. apply app_same; [exact H|]. repeat split. cbn. unfold junk_bytes. rewrite !map_length. reflexivity.
Qed.
Lemma mr_allocate_bytes : forall E E' n, same_choices E E' -> mrel eq (allocate_bytes E n) (allocate_bytes E' n).
Proof.
  intros E E' n (_ & _ & HE) s s' L. unfold allocate_bytes, allocate. pose proof (length_same _ _ L) as X. destruct L as [H Ht].
  rewrite <- Ht, <- HE. destruct (alloc_ok E (tries s)).
  - split; [congruence|]. split; [|reflexivity]. cbn [mem]. apply app_same; [exact H|]. repeat split.
    cbn. unfold junk_bytes. rewrite !map_length. reflexivity.
  - split; [reflexivity|]. split; [exact H | reflexivity].
Qed.

(* ------------------------------------------------------------------ steps with a record *)

Lemma re_bind : forall {A B} (R : A -> A -> Prop) (S : B -> B -> Prop) m m' k k',
  rel R m m' -> (forall a a', R a a' -> rel S (k a) (k' a')) -> rel S (tbind m k) (tbind m' k').
Proof.
  intros A B R S m m' k k' Hm Hk s s' L. specialize (Hm s s' L). unfold tbind.
  destruct (m s) as [t a s1|], (m' s') as [t' a' s1'|]; try contradiction; [|exact I]. destruct Hm as (-> & X & Y).
  specialize (Hk a a' X _ _ Y). destruct (k a s1) as [u b s2|], (k' a' s1') as [u' b' s2'|]; try contradiction; [|exact I].
  destruct Hk as (-> & ? & ?). auto.
Qed.
Lemma re_emit : forall e, rel any (emit e) (emit e).
Proof. intros e s s' L. repeat split; exact (proj1 L) || exact (proj2 L). Qed.
Lemma re_cond : forall b, rel eq (cond b) (cond b).
Proof. intros e s s' L. repeat split; exact (proj1 L) || exact (proj2 L). Qed.
Lemma re_ret : forall {A} (R : A -> A -> Prop) a a', R a a' -> rel R (tret a) (tret a').
Proof. intros A R a a' H s s' L. split; [reflexivity | auto]. Qed.
Lemma re_quiet : forall {A} (R : A -> A -> Prop) m m', mrel R m m' -> rel R (quiet m) (quiet m').
Proof.
  intros A R m m' H s s' L. specialize (H s s' L). unfold quiet. destruct (m s), (m' s'); try contradiction; [|exact I].
  split; [reflexivity | exact H].
Qed.
Lemma re_local : forall {A} (R : A -> A -> Prop) m m', orel R m m' -> rel R (local m) (local m').
Proof.
  intros A R m m' H s s' L. unfold local, orel in *. destruct m as [[t a]|], m' as [[t' a']|]; try contradiction; [|exact I].
  destruct H as [-> H]. split; [reflexivity | split; [exact H | exact L]].
Qed.
Lemma re_error_set : forall e k, rel any (t_error_set e k) (t_error_set e k).
Proof. intros. eapply re_bind; [apply re_emit|]. intros. apply re_quiet, mr_error_set. Qed.
Lemma re_fail : forall e k, rel eq (t_fail e k) (t_fail e k).
Proof. intros. eapply re_bind; [apply re_error_set|]. intros. apply re_ret. reflexivity. Qed.
Lemma re_mset : forall p v n, rel any (t_mset p v n) (t_mset p v n).
Proof. intros. eapply re_bind; [apply re_emit|]. intros. apply re_quiet, mr_mset. Qed.
Lemma re_mcopy : forall d s n, rel any (t_mcopy d s n) (t_mcopy d s n).
Proof. intros. eapply re_bind; [apply re_emit|]. intros. apply re_quiet, mr_mcopy. Qed.
Lemma re_mfree : forall p, rel any (t_mfree p) (t_mfree p).
Proof. intros. eapply re_bind; [apply re_emit|]. intros. apply re_quiet, mr_mfree. Qed.
Lemma re_read_byte : forall p, rel any (t_read_byte p) (t_read_byte p).
Proof. intros. eapply re_bind; [apply re_emit|]. intros. apply re_quiet, mr_read_byte. Qed.
Lemma re_write_byte : forall p b b', rel any (t_write_byte p b) (t_write_byte p b').
Proof. intros. eapply re_bind; [apply re_emit|]. intros. apply re_quiet, mr_write_byte. Qed.
Lemma re_mfold : forall {A B} (R : A -> A -> Prop) (f f' : A -> B -> T A) l a a',
  (forall a a' b, R a a' -> rel R (f a b) (f' a' b)) -> R a a' -> rel R (t_mfold f l a) (t_mfold f' l a').
Proof.
  intros A B R f f' l a a' H. revert a a'. induction l as [|b l IH]; intros a a' Ha; cbn [t_mfold]; [apply re_ret; exact Ha|].
  eapply re_bind; [apply H; exact Ha | exact IH].
Qed.
Lemma re_mloop : forall {A B} (R : A -> A -> Prop) (f f' : A -> B -> T A) l a a',
  (forall a a' b, R a a' -> rel R (f a b) (f' a' b)) -> R a a' -> rel R (t_mloop f l a) (t_mloop f' l a').
Proof.
  intros A B R f f' l a a' H. revert a a'. induction l as [|b l IH]; intros a a' Ha; cbn [t_mloop];
    (eapply re_bind; [apply re_emit|]); intros _ _ _; [apply re_ret; exact Ha|].
  eapply re_bind; [apply H; exact Ha | exact IH].
Qed.
Lemma re_bytes : forall at_ n off, rel any (t_bytes at_ n off) (t_bytes at_ n off).
Proof.
  intros at_ n. induction n as [|n IH]; intro off; cbn [t_bytes]; [apply re_ret; exact I|].
  eapply re_bind; [apply re_emit|]. intros _ _ _. apply IH.
Qed.

Ltac re_leaf := solve
  [ apply re_emit | apply re_error_set | apply re_fail | apply re_mset | apply re_mcopy | apply re_mfree | apply re_read_byte
  | apply re_write_byte | apply re_bytes
  | apply re_quiet; first [apply mr_log | apply mr_calls | apply mr_load | apply mr_view
    | apply mr_store; first [assumption | unfold ctx_same in *; cbn [c_count c_boff c_hash c_block]; intuition congruence] ] ].
Ltac re1 := first
  [ re_leaf
  | apply re_ret; first [exact I | reflexivity | congruence]
  | eapply re_bind; [apply re_cond | intros [|] ? <-]
  | eapply re_bind; [re_leaf | intros ? ? ?] ].

Section Two.
  Variables E E' : env.
  Hypothesis HE : same_choices E E'.
  Lemma HU : unrolled E = unrolled E'. Proof. exact (proj1 HE). Qed.
  Lemma HP : plat64 E = plat64 E'. Proof. exact (proj1 (proj2 HE)). Qed.
  Lemma ssize_same : ssize_max E' = ssize_max E. Proof. unfold ssize_max. rewrite HP. reflexivity. Qed.
  Lemma size_mod_same : size_mod E' = size_mod E. Proof. unfold size_mod. rewrite HP. reflexivity. Qed.
  Lemma to_ssize_same : forall n, to_ssize E' n = to_ssize E n.
  Proof. intro. unfold to_ssize. rewrite ssize_same, size_mod_same. reflexivity. Qed.

  Lemma re_transform : forall a context base buf buf' size e, oopt leq buf buf' ->
    rel eq (t_transform E a context base buf size e) (t_transform E' a context base buf' size e).
  Proof.
    intros a context base buf buf' size e Hb. unfold t_transform. cbv zeta. rewrite ssize_same.
    eapply re_bind; [apply re_cond | intros ? ? _]. destruct context as [p|]; [|apply re_fail].
    assert (is_null buf' = is_null buf) as -> by (destruct buf, buf'; try contradiction; reflexivity).
    eapply re_bind; [apply re_cond | intros ? ? _]. destruct buf as [l|], buf' as [l'|]; try contradiction; [|apply re_fail].
    cbn in Hb. re1; [apply re_fail|].
    eapply re_bind; [apply re_quiet, mr_load | intros c c' Hc].
    eapply re_bind; [apply re_quiet, mr_calls | intros n n' _].
    eapply re_bind.
    { apply re_local, or_transform_loop; [exact HU | exact Hb | apply Hc | |]; unfold leq; rewrite !map_length; reflexivity. }
    intros [[[o ch] hv] v] [[[o' ch'] hv'] v'] (<- & X & Y & Z).
    eapply re_bind; [apply re_quiet, mr_store; destruct Hc as (? & ? & ? & ?); repeat split; assumption | intros _ _ _].
    eapply re_bind; [apply re_emit | intros _ _ _].
    eapply re_bind; [apply re_quiet, mr_lift, clear_first_leq; exact Y | intros ? ? ?].
    eapply re_bind; [apply re_emit | intros _ _ _].
    eapply re_bind; [apply re_quiet, mr_lift, clear_first_leq; exact Z | intros ? ? ?].
    eapply re_bind; [apply re_quiet, mr_log | intros _ _ _]. apply re_ret. symmetry. apply to_ssize_same.
  Qed.

  (* between the request for memory and its clearing the new context holds what was there before *)
  Lemma re_initialize : forall a context e, rel eq (t_initialize E a context e) (t_initialize E' a context e).
  Proof.
    intros a context e. unfold t_initialize. cbv zeta. eapply re_bind; [apply re_cond | intros ? ? _].
    destruct context as [v|]; [|eapply re_bind; [apply re_fail | intros ? ? <-; apply re_ret; reflexivity]].
    eapply re_bind; [apply re_cond | intros ? ? _].
    destruct v as [q|]; [eapply re_bind; [apply re_fail | intros ? ? <-; apply re_ret; reflexivity]|].
    eapply re_bind; [apply re_emit | intros _ _ _].
    match goal with |- rel _ (tbind _ ?k) _ => set (K := k) end.
    intros s s' L. unfold tbind, quiet, allocate.
    assert (Hl := length_same _ _ L). assert (tries s' = tries s) as -> by (symmetry; exact (proj2 L)).
    assert (alloc_ok E' (tries s) = alloc_ok E (tries s)) as -> by (symmetry; apply HE).
    destruct (alloc_ok E (tries s)).
    - set (c0 := mk_ctx 0 (a_iv (alg_of a)) 0 (repeat 0 (N.to_nat (2 * a_bs (alg_of a))))).
      assert (X : forall F x, K (Some (length (mem x)))
          (mk_state (mem x ++ [mk_cell true Heap (OCtx a (junk_ctx F (alg_of a) (length (mem x))))]) (S (tries s)) (errs x) (resid x))
        = TDone [Condition false; MemorySet (PWhole (length (mem x))) 1;
                 MemoryCopied (PMember (length (mem x)) MHash 0) (PTable TStart 0) (N.of_nat (a_nh (alg_of a)))]
            (1%Z, Some (length (mem x)))
            (mk_state (mem x ++ [mk_cell true Heap (OCtx a c0)]) (S (tries s)) (errs x) (resid x))).
      { intros F x.
        assert (G : forall o t er re, get_obj (mk_state (mem x ++ [mk_cell true Heap o]) t er re) (length (mem x)) = Some o).
        { intros. unfold get_obj. cbn [mem]. rewrite nth_error_app2 by lia. rewrite Nat.sub_diag. reflexivity. }
        assert (P : forall o o' t er re, put_obj (length (mem x)) o' (mk_state (mem x ++ [mk_cell true Heap o]) t er re)
                    = Some (mk_state (mem x ++ [mk_cell true Heap o']) t er re)).
        { intros. unfold put_obj. cbn [mem]. rewrite nth_error_app2 by lia. rewrite Nat.sub_diag. cbn [nth_error live knd].
          unfold set_mem. cbn [tries errs resid]. do 2 f_equal. clear. induction (mem x); cbn; [reflexivity | congruence]. }
        assert (algid_eqb a a = true) as Q by (destruct a; reflexivity).
        unfold K, cond, emit, tret, quiet, tbind, load_ctx, store_ctx. cbn [is_null].
        repeat first [rewrite G | rewrite Q | rewrite P | progress (cbv beta iota)]. reflexivity. }
      rewrite (X E s). rewrite (X E' s'). rewrite <- Hl. split; [reflexivity|]. split; [reflexivity|].
      split; [|reflexivity]. cbn [mem]. apply app_same; [exact (proj1 L)|]. repeat split.
    - assert (same_layout (mk_state (mem s) (S (tries s)) (errs s) (resid s)) (mk_state (mem s') (S (tries s)) (errs s') (resid s'))) as L'
        by (split; [exact (proj1 L) | reflexivity]).
      assert (Y : rel eq (K None) (K None)).
      { eapply re_bind; [apply re_cond | intros ? ? _]. eapply re_bind; [apply re_fail | intros ? ? <-].
        eapply re_bind; [apply re_cond | intros ? ? _]. apply re_ret. reflexivity. }
      specialize (Y _ _ L').
      match type of Y with match ?x with _ => _ end => destruct x as [t1 r1 s1|] end;
      match type of Y with match ?x with _ => _ end => destruct x as [t2 r2 s2|] end; try contradiction; [|exact I].
      exact Y.
  Qed.

  Lemma re_free : forall a context e, rel eq (t_free a context e) (t_free a context e).
  Proof.
    intros a context e. unfold t_free. eapply re_bind; [apply re_cond | intros ? ? _].
    destruct context as [v|]; [|eapply re_bind; [apply re_fail | intros ? ? <-; apply re_ret; reflexivity]].
    eapply re_bind; [apply re_cond | intros ? ? _]. destruct v; repeat re1.
  Qed.
  Lemma re_update_tail : forall a p bp buf buf' off size e, leq buf buf' ->
    rel eq (t_update_tail E a p bp buf off size e) (t_update_tail E' a p bp buf' off size e).
  Proof.
    intros a p bp buf buf' off size e Hb. unfold t_update_tail. cbv zeta. rewrite size_mod_same.
    eapply re_bind; [apply re_cond | intros more ? <-].
    eapply (re_bind eq).
    - destruct more; [|apply re_ret; reflexivity].
      eapply re_bind; [apply re_transform; cbn; apply leq_skipn; exact Hb | intros pc ? <-].
      eapply re_bind; [apply re_cond | intros failed ? <-]. destruct failed.
      + eapply re_bind; [apply re_fail | intros ? ? <-]. apply re_ret. reflexivity.
      + do 2 re1. eapply re_bind; [apply re_quiet, mr_load | intros c c' Hc].
        eapply re_bind; [apply re_quiet, mr_store | intros _ _ _].
        { destruct Hc as (X & ? & ? & ?). repeat split; try assumption. cbn. rewrite X. reflexivity. }
        apply re_ret. reflexivity.
    - intros [[o n]|] ? <-; [|apply re_ret; reflexivity].
      eapply re_bind; [apply re_cond | intros more2 ? <-]. destruct more2; [|apply re_ret; reflexivity].
      eapply re_bind; [apply re_cond | intros large ? <-]. destruct large; [apply re_fail|].
      eapply re_bind; [apply re_emit | intros _ _ _].
      eapply re_bind; [apply re_quiet, mr_load | intros c c' Hc].
      eapply re_bind; [apply re_quiet, mr_lift, take_leq, leq_skipn; exact Hb | intros d d' Hd].
      eapply re_bind; [apply re_quiet, mr_lift, splice_leq; [apply Hc | exact Hd] | intros b b' Hbb].
      eapply re_bind; [apply re_emit | intros _ _ _].
      eapply re_bind; [apply re_quiet, mr_store | intros _ _ _].
      { destruct Hc as (? & ? & ? & ?). repeat split; assumption. }
      apply re_ret. reflexivity.
  Qed.
  Lemma re_update : forall a context buffer size e, rel eq (t_update E a context buffer size e) (t_update E' a context buffer size e).
  Proof.
    intros a context buffer size e. unfold t_update. cbv zeta. rewrite ssize_same.
    eapply re_bind; [apply re_cond | intros ? ? _]. destruct context as [p|]; [|apply re_fail].
    eapply re_bind; [apply re_cond | intros ? ? _]. destruct buffer as [bp|]; [|apply re_fail].
    eapply re_bind; [apply re_cond | intros large ? <-]. destruct large; [apply re_fail|].
    eapply re_bind; [apply re_cond | intros nothing ? <-]. destruct nothing; [apply re_ret; reflexivity|].
    eapply re_bind; [apply re_quiet, mr_load | intros c c' Hc].
    eapply re_bind; [apply re_quiet, mr_view | intros buf buf' Hb].
    eapply re_bind; [apply re_emit | intros _ _ _].
    assert (c_boff c' = c_boff c) as -> by (symmetry; apply Hc).
    eapply re_bind; [apply re_cond | intros started ? <-]. destruct started; [|apply re_update_tail; exact Hb].
    eapply re_bind; [apply re_emit | intros _ _ _].
    eapply re_bind; [apply re_cond | intros wrong ? <-]. destruct wrong; [apply re_fail|].
    eapply re_bind; [apply re_emit | intros _ _ _].
    eapply re_bind; [apply re_cond | intros small ? <-]. 
    set (remaining := if small then size else a_bs (alg_of a) - c_boff c).
    do 2 (eapply re_bind; [apply re_emit | intros _ _ _]).
    eapply re_bind; [apply re_quiet, mr_lift, take_leq; exact Hb | intros d d' Hd].
    eapply re_bind; [apply re_quiet, mr_lift, splice_leq; [apply Hc | exact Hd] | intros b b' Hbb].
    do 2 (eapply re_bind; [apply re_emit | intros _ _ _]).
    eapply re_bind; [apply re_quiet, mr_store | intros _ _ _].
    { destruct Hc as (? & ? & ? & ?). repeat split; assumption. }
    eapply re_bind; [apply re_emit | intros _ _ _].
    eapply re_bind; [apply re_cond | intros unfilled ? <-]. destruct unfilled; [apply re_ret; reflexivity|].
    eapply re_bind; [apply re_transform; exact Hbb | intros pc ? <-].
    eapply re_bind; [apply re_cond | intros failed ? <-]. destruct failed; [apply re_fail|].
    do 3 (eapply re_bind; [apply re_emit | intros _ _ _]).
    eapply re_bind; [apply re_quiet, mr_load | intros k k' Hk].
    eapply re_bind; [apply re_quiet, mr_store | intros _ _ _].
    { destruct Hk as (X & ? & ? & ?). repeat split; try assumption. cbn. rewrite X. reflexivity. }
    apply re_update_tail. exact Hb.
  Qed.
  Lemma or_final_checks : forall A l n, orel eq (t_final_checks E A l n) (t_final_checks E' A l n).
  Proof.
    intros A l n. induction l as [|[|] l IH]; cbn [t_final_checks]; [apply or_ret; reflexivity| |]; try rewrite ssize_same;
      (eapply or_bind; [apply or_cond | intros b ? <-]); destruct b; try exact IH; apply or_ret; reflexivity.
  Qed.
  Lemma copy_from_uint_leq : forall n b v v', leq (copy_from_uint n b v) (copy_from_uint n b v').
  Proof. intros. unfold leq, copy_from_uint. destruct b; rewrite ?rev_length, !map_length; reflexivity. Qed.
  Lemma re_store_digest : forall a p hash, rel any (t_store_digest E a p hash) (t_store_digest E' a p hash).
  Proof.
    intros a p hash. unfold t_store_digest. cbv zeta. rewrite <- HU. destruct (unrolled E).
    - apply re_mfold; [|exact I]. intros u u' st _. do 2 re1.
      eapply re_bind; [apply re_quiet, mr_load | intros c c' Hc].
      eapply (re_bind any); [apply re_quiet, mr_lift | intros v v' _].
      { pose proof (aget_leq (c_hash c) (c_hash c') (snd st) (proj1 (proj2 (proj2 Hc)))) as X. unfold oopt, any.
        destruct (aget (c_hash c) (snd st)), (aget (c_hash c') (snd st)); auto. }
      apply re_quiet, mr_write, copy_from_uint_leq.
    - eapply (re_bind eq); [|intros _ _ _; apply re_ret; exact I].
      apply re_mloop; [|reflexivity]. intros h h' i Hh; subst h'. do 2 re1.
      eapply re_bind; [apply re_quiet, mr_load | intros c c' Hc].
      eapply (re_bind any); [apply re_quiet, mr_lift | intros v v' _].
      { pose proof (aget_leq (c_hash c) (c_hash c') i (proj1 (proj2 (proj2 Hc)))) as X. unfold oopt, any.
        destruct (aget (c_hash c) i), (aget (c_hash c') i); auto. }
      eapply re_bind; [apply re_quiet, mr_write, copy_from_uint_leq | intros _ _ _]. apply re_ret. reflexivity.
  Qed.
  Lemma re_finalize : forall a context hash n e, rel eq (t_finalize E a context hash n e) (t_finalize E' a context hash n e).
  Proof.
    intros a context hash n e. unfold t_finalize. cbv zeta. rewrite size_mod_same.
    eapply re_bind; [apply re_cond | intros ? ? _]. destruct context as [p|]; [|apply re_fail].
    eapply re_bind; [apply re_cond | intros ? ? _]. destruct hash as [hp|]; [|apply re_fail].
    eapply re_bind; [apply re_local, or_final_checks | intros [k|] ? <-]; [apply re_fail|].
    eapply re_bind; [apply re_quiet, mr_load | intros c c' Hc].
    assert (c_boff c' = c_boff c) as -> by (symmetry; apply Hc).
    eapply re_bind; [apply re_emit | intros _ _ _].
    eapply re_bind; [apply re_cond | intros two ? <-].
    do 2 (eapply re_bind; [apply re_emit | intros _ _ _]).
    eapply re_bind; [apply re_quiet, mr_lift, splice_leq; [apply Hc | reflexivity] | intros b b' Hb].
    do 2 (eapply re_bind; [apply re_emit | intros _ _ _]).
    eapply re_bind; [apply re_quiet, mr_lift, splice_leq; [exact Hb | reflexivity] | intros d d' Hd].
    do 2 (eapply re_bind; [apply re_emit | intros _ _ _]).
    eapply re_bind; [apply re_bytes | intros _ _ _].
    eapply re_bind; [apply re_quiet, mr_lift, splice_leq; [exact Hd | apply copy_from_uint_leq] | intros f f' Hf].
    eapply re_bind; [apply re_quiet, mr_store | intros _ _ _].
    { destruct Hc as (? & ? & ? & ?). repeat split; assumption. }
    eapply re_bind; [apply re_transform; exact Hf | intros pc ? <-].
    eapply re_bind; [apply re_cond | intros failed ? <-]. destruct failed; [apply re_fail|].
    eapply re_bind; [apply re_store_digest | intros _ _ _].
    eapply re_bind; [apply re_emit | intros _ _ _].
    eapply re_bind; [apply re_quiet, mr_store | intros _ _ _]; [repeat split|]. apply re_ret. reflexivity.
  Qed.
  Lemma re_calculate_on_error : forall a context, rel eq (t_calculate_on_error a context) (t_calculate_on_error a context).
  Proof.
    intros. unfold t_calculate_on_error. eapply re_bind; [apply re_cond | intros ? ? _]. destruct context; [|apply re_ret; reflexivity].
    eapply re_bind; [apply re_free | intros ? ? _]. apply re_ret. reflexivity.
  Qed.
  Ltac err := eapply re_bind; [apply re_error_set | intros _ _ _; first [apply re_ret; reflexivity | apply re_calculate_on_error]].
  Ltac step L := eapply re_bind; [apply L | intros ? ? <-]; unfold not_one; eapply re_bind; [apply re_cond | intros [|] ? <-; [err|]].
  Lemma re_calculate : forall a buffer size hash n e, rel eq (t_calculate E a buffer size hash n e) (t_calculate E' a buffer size hash n e).
  Proof.
    intros. unfold t_calculate. cbv zeta. step re_initialize. step re_update. step re_finalize. step re_free. apply re_ret. reflexivity.
  Qed.
  Lemma re_clear_and_free : forall a p, rel any (t_clear_and_free a p) (t_clear_and_free a p).
  Proof. intros. unfold t_clear_and_free. eapply re_bind; [apply re_cond | intros ? ? _]. destruct p; repeat re1. Qed.
  Lemma re_hmac_on_error : forall a c o i k, rel eq (t_hmac_on_error a c o i k) (t_hmac_on_error a c o i k).
  Proof.
    intros. unfold t_hmac_on_error. eapply (re_bind any).
    - eapply re_bind; [apply re_cond | intros ? ? _]. destruct c; [|apply re_ret; exact I].
      eapply re_bind; [apply re_free | intros ? ? _]. apply re_ret. exact I.
    - intros _ _ _. do 3 (eapply re_bind; [apply re_clear_and_free | intros _ _ _]). apply re_ret. reflexivity.
  Qed.
  Lemma re_allocate_bytes : forall n, rel eq (t_allocate_bytes E n) (t_allocate_bytes E' n).
  Proof. intros. eapply re_bind; [apply re_emit | intros _ _ _]. apply re_quiet, mr_allocate_bytes, HE. Qed.
  Lemma re_key_data : forall a kh kd key n e, rel eq (t_hmac_key_data E a kh kd key n e) (t_hmac_key_data E' a kh kd key n e).
  Proof.
    intros. unfold t_hmac_key_data. cbv zeta. eapply re_bind; [apply re_cond | intros [|] ? <-].
    - do 2 re1. apply re_ret. reflexivity.
    - step re_initialize. step re_update. step re_finalize. step re_free. eapply (re_bind any).
      + eapply re_bind; [apply re_cond | intros [|] ? <-]; repeat re1.
      + intros _ _ _. re1. apply re_ret. reflexivity.
  Qed.
  Lemma re_xor : forall i o k n, rel any (t_hmac_xor i o k n) (t_hmac_xor i o k n).
  Proof. intros. apply re_mloop; [|exact I]. intros u u' j _. unfold t_hmac_xor_step. repeat re1. Qed.
  Lemma re_pass : forall a pad buffer size h n e, rel eq (t_hmac_pass E a pad buffer size h n e) (t_hmac_pass E' a pad buffer size h n e).
  Proof.
    intros. unfold t_hmac_pass. cbv zeta. step re_initialize. step re_update. step re_update. step re_finalize. step re_free.
    apply re_ret. reflexivity.
  Qed.
  Ltac herr := eapply re_bind; [apply re_error_set | intros _ _ _; apply re_hmac_on_error].
  Lemma re_calculate_hmac : forall a key kn buffer size h n e,
    rel eq (t_calculate_hmac E a key kn buffer size h n e) (t_calculate_hmac E' a key kn buffer size h n e).
  Proof.
    intros. unfold t_calculate_hmac. eapply re_bind; [apply re_quiet, mr_push | intros kh ? <-].
    eapply (re_bind eq); [|intros r ? <-; eapply re_bind; [apply re_quiet, mr_pop | intros _ _ _; apply re_ret; reflexivity]].
    unfold t_calculate_hmac_body. cbv zeta. rewrite ssize_same. eapply re_bind; [apply re_cond | intros ? ? _].
    destruct key as [kp|]; [|apply re_fail].
    eapply re_bind; [apply re_cond | intros [|] ? <-]; [apply re_fail|].
    eapply re_bind; [apply re_cond | intros [|] ? <-]; [apply re_fail|].
    eapply re_bind; [apply re_allocate_bytes | intros kd ? <-]. eapply re_bind; [apply re_cond | intros ? ? _].
    destruct kd as [kd|]; [|herr].
    eapply re_bind; [apply re_key_data | intros [c|] ? <-]; [apply re_hmac_on_error|].
    eapply re_bind; [apply re_allocate_bytes | intros ip ? <-]. eapply re_bind; [apply re_cond | intros ? ? _].
    destruct ip as [ip|]; [|herr]. re1.
    eapply re_bind; [apply re_allocate_bytes | intros op ? <-]. eapply re_bind; [apply re_cond | intros ? ? _].
    destruct op as [op|]; [|herr]. re1. eapply re_bind; [apply re_xor | intros _ _ _].
    eapply re_bind; [apply re_pass | intros [c|] ? <-]; [apply re_hmac_on_error|].
    eapply re_bind; [apply re_pass | intros [c|] ? <-]; [apply re_hmac_on_error|].
    do 6 re1. apply re_ret. reflexivity.
  Qed.
End Two.
