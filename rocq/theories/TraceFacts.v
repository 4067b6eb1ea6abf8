(* Two runs on memories of the same layout leave the same record. *)
From Coq Require Import Arith NArith ZArith List Bool Lia.
From Verif Require Import Words Tables Transform Machine Context Hash Trace TraceVocab.
Import ListNotations.
Open Scope N_scope.

Definition leq {A} (l l' : list A) : Prop := length l = length l'.
Definition any {A} (x y : A) : Prop := True.

(* ------------------------------------------------------------------ local arrays *)

Definition orel {A} (R : A -> A -> Prop) (m m' : OT A) : Prop :=
  match m, m' with
  | Some (t, a), Some (t', a') => t = t' /\ R a a'
  | None, None => True
  | _, _ => False
  end.
Lemma or_bind : forall {A B} (R : A -> A -> Prop) (S : B -> B -> Prop) m m' (k k' : A -> OT B),
  orel R m m' -> (forall a a', R a a' -> orel S (k a) (k' a')) -> orel S (otbind m k) (otbind m' k').
Proof.
  intros A B R S m m' k k' Hm Hk. unfold orel in Hm. destruct m as [[t a]|], m' as [[t' a']|]; try contradiction; [|exact I].
  destruct Hm as [-> H]. specialize (Hk a a' H). unfold orel in *. cbn.
  destruct (k a) as [[u b]|], (k' a') as [[u' b']|]; try contradiction; [|exact I]. destruct Hk as [-> ?]. split; [reflexivity | assumption].
Qed.
Lemma or_ret : forall {A} (R : A -> A -> Prop) a a', R a a' -> orel R (oret a) (oret a').
Proof. intros. split; [reflexivity | assumption]. Qed.
Lemma or_emit : forall e, orel any (oemit e) (oemit e).
Proof. intros. split; [reflexivity | exact I]. Qed.
Lemma or_cond : forall b, orel eq (ocond b) (ocond b).
Proof. intros. split; reflexivity. Qed.
Lemma aget_leq : forall {A} (l l' : list A) i, leq l l' ->
  match aget l i, aget l' i with Some _, Some _ => True | None, None => True | _, _ => False end.
Proof.
  intros A l l' i H. unfold aget. destruct (nth_error l i) eqn:X, (nth_error l' i) eqn:Y; try exact I.
  - apply nth_error_None in Y. assert (nth_error l i <> None) as Z by congruence. apply nth_error_Some in Z. unfold leq in H. lia.
  - apply nth_error_None in X. assert (nth_error l' i <> None) as Z by congruence. apply nth_error_Some in Z. unfold leq in H. lia.
Qed.
Lemma aset_length : forall {A} (l : list A) i v, 
  match aset l i v with Some l1 => length l1 = length l /\ (i < length l)%nat | None => (length l <= i)%nat end.
Proof.
  intros A l. induction l as [|x l IH]; intros i v; cbn [aset length]; [lia|].
  destruct i as [|i]; cbn [length]; [lia|]. specialize (IH i v). destruct (aset l i v); cbn [length]; lia.
Qed.
Lemma or_get : forall {A} at_ (l l' : list A) i, leq l l' -> orel any (tget at_ l i) (tget at_ l' i).
Proof.
  intros A at_ l l' i H. unfold tget. eapply or_bind; [apply or_emit|]. intros _ _ _.
  pose proof (aget_leq l l' i H). destruct (aget l i), (aget l' i); try contradiction; [apply or_ret; exact I | exact I].
Qed.
Lemma or_get_same : forall {A} at_ (l : list A) i, orel eq (tget at_ l i) (tget at_ l i).
Proof.
  intros A at_ l i. unfold tget. eapply or_bind; [apply or_emit|]. intros _ _ _.
  destruct (aget l i); [apply or_ret; reflexivity | exact I].
Qed.
Lemma or_set : forall {A} at_ (l l' : list A) i v v', leq l l' -> orel leq (tset at_ l i v) (tset at_ l' i v').
Proof.
  intros A at_ l l' i v v' H. unfold tset. eapply or_bind; [apply or_emit|]. intros _ _ _.
  pose proof (aset_length l i v). pose proof (aset_length l' i v'). unfold leq in H.
  destruct (aset l i v), (aset l' i v'); try lia; [apply or_ret; unfold leq; lia | exact I].
Qed.
Lemma or_mod : forall {A} at_ (l l' : list A) i f f', leq l l' -> orel leq (tmod at_ l i f) (tmod at_ l' i f').
Proof. intros. unfold tmod. eapply or_bind; [apply or_get; assumption|]. intros. apply or_set; assumption. Qed.
Lemma or_fold : forall {A B} (R : A -> A -> Prop) (f f' : A -> B -> OT A) l a a',
  (forall a a' b, R a a' -> orel R (f a b) (f' a' b)) -> R a a' -> orel R (tfold f l a) (tfold f' l a').
Proof.
  intros A B R f f' l a a' H. revert a a'. induction l as [|b l IH]; intros a a' Ha; cbn [tfold]; [apply or_ret; exact Ha|].
  eapply or_bind; [apply H; exact Ha | exact IH].
Qed.
Lemma or_loop : forall {A B} (R : A -> A -> Prop) (f f' : A -> B -> OT A) l a a',
  (forall a a' b, R a a' -> orel R (f a b) (f' a' b)) -> R a a' -> orel R (tloop f l a) (tloop f' l a').
Proof.
  intros A B R f f' l a a' H. revert a a'. induction l as [|b l IH]; intros a a' Ha; cbn [tloop];
    (eapply or_bind; [apply or_emit|]); intros _ _ _; [apply or_ret; exact Ha|].
  eapply or_bind; [apply H; exact Ha | exact IH].
Qed.
Lemma or_bget : forall base buf buf' off, leq buf buf' -> orel any (t_bget base buf off) (t_bget base buf' off).
Proof.
  intros base buf buf' off H. unfold t_bget. eapply or_bind; [apply or_emit|]. intros _ _ _.
  pose proof (aget_leq buf buf' (N.to_nat off) H) as X. unfold aget in X. unfold bget.
  destruct (nth_error buf (N.to_nat off)), (nth_error buf' (N.to_nat off)); try contradiction; [apply or_ret; exact I | exact I].
Qed.
Lemma or_copy_to_uint : forall w order base buf buf' off, leq buf buf' ->
  orel any (t_copy_to_uint w order base buf off) (t_copy_to_uint w order base buf' off).
Proof.
  intros w order base buf buf' off H. unfold t_copy_to_uint. destruct order as [|k rest]; [exact I|].
  eapply or_bind; [apply or_bget; exact H|]. intros. apply or_fold; [|exact I]. intros.
  eapply or_bind; [apply or_bget; exact H|]. intros. apply or_ret. exact I.
Qed.
Lemma or_copy_16x : forall w order table base buf buf' off v v', leq buf buf' -> leq v v' ->
  orel leq (t_copy_16x w order table base buf off v) (t_copy_16x w order table base buf' off v').
Proof.
  intros w order table base buf buf' off v v' H Hv. unfold t_copy_16x. apply or_fold; [|exact Hv]. intros.
  eapply or_bind; [apply or_copy_to_uint; exact H|]. intros. apply or_set. assumption.
Qed.
Definition pair_leq {A B} (x y : A * list B) : Prop := fst x = fst y /\ leq (snd x) (snd y).
Lemma or_copy_loop : forall w order base buf buf' off v v', leq buf buf' -> leq v v' ->
  orel pair_leq (t_copy_loop w order base buf off v) (t_copy_loop w order base buf' off v').
Proof.
  intros w order base buf buf' off v v' H Hv. unfold t_copy_loop. apply or_loop; [|split; [reflexivity | exact Hv]].
  intros [o u] [o' u'] b [X Y]. cbn in X, Y. subst o'.
  eapply or_bind; [apply or_copy_to_uint; exact H|]. intros. eapply or_bind; [apply or_set; exact Y|]. intros.
  apply or_ret. split; [reflexivity | assumption].
Qed.
Lemma or_add_hash_values : forall u p w n ch ch' hv hv', leq ch ch' -> leq hv hv' ->
  orel leq (t_add_hash_values u p w n ch hv) (t_add_hash_values u p w n ch' hv').
Proof.
  intros u p w n ch ch' hv hv' Hc Hh. unfold t_add_hash_values.
  destruct u; [apply or_fold | apply or_loop]; try exact Hc; intros; (eapply or_bind; [apply or_get; exact Hh|]); intros; apply or_mod; assumption.
Qed.
Lemma or_round : forall i a b c, orel eq (t_round i a b c) (t_round i a b c).
Proof.
  intros. unfold t_round. repeat (eapply or_bind; [apply or_cond|]; intros x ? <-; destruct x; [apply or_ret; reflexivity|]).
  apply or_ret; reflexivity.
Qed.

Ltac or1 := first
  [ assumption | exact I
  | eapply or_bind; [solve [apply or_get; assumption | apply or_set; assumption | apply or_mod; assumption] | intros ? ? ?]
  | apply or_set; assumption | apply or_mod; assumption | apply or_get; assumption
  | apply or_ret ].
Lemma md5_round_any : forall r h1 h2 h3 h1' h2' h3',
  orel any (match md5_round_fun r h1 h2 h3 with Some f => oret f | None => None end)
           (match md5_round_fun r h1' h2' h3' with Some f => oret f | None => None end).
Proof. intros. destruct r as [|[|[|[|[|r]]]]]; cbn [md5_round_fun]; first [exact I | apply or_ret; exact I]. Qed.
Lemma sha1_round_any : forall r h1 h2 h3 h1' h2' h3',
  orel any (match sha1_round_fun r h1 h2 h3 with Some f => oret f | None => None end)
           (match sha1_round_fun r h1' h2' h3' with Some f => oret f | None => None end).
Proof. intros. destruct r as [|[|[|[|[|r]]]]]; cbn [sha1_round_fun]; first [exact I | apply or_ret; exact I]. Qed.
Ltac same := eapply or_bind; [apply or_get_same | intros ? ? <-].

Lemma or_md5_macro : forall v v' hv hv' inv, leq v v' -> leq hv hv' -> orel leq (t_md5_macro v hv inv) (t_md5_macro v' hv' inv).
Proof.
  intros v v' hv hv' [[[r vi] [[[i0 i1] i2] i3]] bi] Hv Hh. unfold t_md5_macro. do 3 or1.
  eapply or_bind; [apply md5_round_any | intros ? ? ?]. do 3 or1. same. or1. same. repeat or1.
Qed.
Lemma or_md5_loop_step : forall v v' hv hv' i, leq v v' -> leq hv hv' -> orel leq (t_md5_loop_step v hv i) (t_md5_loop_step v' hv' i).
Proof.
  intros v v' hv hv' i Hv Hh. unfold t_md5_loop_step. do 3 or1. eapply or_bind; [apply or_round | intros ? ? <-].
  eapply or_bind; [apply md5_round_any | intros ? ? ?]. or1. same. do 2 or1. same. or1. same. repeat or1.
Qed.
Definition result_leq (x y : block_result) : Prop :=
  let '(o, c, h, v) := x in let '(o', c', h', v') := y in o = o' /\ leq c c' /\ leq h h' /\ leq v v'.
Lemma or_md5_block : forall u p base buf buf' off ch ch' v v', leq buf buf' -> leq ch ch' -> leq v v' ->
  orel result_leq (t_md5_block u p base buf off ch v) (t_md5_block u p base buf' off ch' v').
Proof.
  intros u p base buf buf' off ch ch' v v' Hb Hc Hv. unfold t_md5_block. eapply or_bind; [apply or_emit|]. intros _ _ _. destruct u.
  - eapply or_bind; [apply or_copy_16x; assumption|]. intros. eapply or_bind; [apply or_fold; [intros; apply or_md5_macro; eassumption | exact Hc]|].
    intros. eapply or_bind; [apply or_add_hash_values; eassumption|]. intros. apply or_ret. cbn. auto.
  - eapply or_bind; [apply or_copy_loop; eassumption|]. intros [o1 v1] [o2 v2] [X Y]. cbn in X, Y. subst o2.
    eapply or_bind; [apply or_loop; [intros; apply or_md5_loop_step; eassumption | exact Hc]|].
    intros. eapply or_bind; [apply or_add_hash_values; eassumption|]. intros. apply or_ret. cbn. auto.
Qed.
Lemma or_sha1_extend : forall v v' i, leq v v' -> orel leq (t_sha1_extend v i) (t_sha1_extend v' i).
Proof. intros v v' i H. unfold t_sha1_extend. destruct (Nat.ltb i 16); [exact I|]. repeat or1. Qed.
Lemma or_sha1_macro : forall v v' hv hv' inv, leq v v' -> leq hv hv' -> orel leq (t_sha1_macro v hv inv) (t_sha1_macro v' hv' inv).
Proof.
  intros v v' hv hv' [[r vi] [[[[i0 i1] i2] i3] i4]] Hv Hh. unfold t_sha1_macro. do 3 or1.
  eapply or_bind; [apply sha1_round_any | intros ? ? ?]. repeat or1.
Qed.
Lemma or_sha1_loop_step : forall v v' hv hv' i, leq v v' -> leq hv hv' -> orel leq (t_sha1_loop_step v hv i) (t_sha1_loop_step v' hv' i).
Proof.
  intros v v' hv hv' i Hv Hh. unfold t_sha1_loop_step. do 3 or1. eapply or_bind; [apply or_round | intros ? ? <-].
  eapply or_bind; [apply sha1_round_any | intros ? ? ?]. repeat or1.
Qed.
Lemma or_sha1_block : forall u p base buf buf' off ch ch' v v', leq buf buf' -> leq ch ch' -> leq v v' ->
  orel result_leq (t_sha1_block u p base buf off ch v) (t_sha1_block u p base buf' off ch' v').
Proof.
  intros u p base buf buf' off ch ch' v v' Hb Hc Hv. unfold t_sha1_block. eapply or_bind; [apply or_emit|]. intros _ _ _. destruct u.
  - eapply or_bind; [apply or_copy_16x; assumption|]. intros. 
    eapply or_bind; [apply or_fold; [intros; apply or_sha1_extend; eassumption | eassumption]|]. intros.
    eapply or_bind; [apply or_fold; [intros; apply or_sha1_macro; eassumption | exact Hc]|].
    intros. eapply or_bind; [apply or_add_hash_values; eassumption|]. intros. apply or_ret. cbn. auto.
  - eapply or_bind; [apply or_copy_loop; eassumption|]. intros [o1 v1] [o2 v2] [X Y]. cbn in X, Y. subst o2.
    eapply or_bind; [apply or_loop; [intros; apply or_sha1_extend; eassumption | eassumption]|]. intros.
    eapply or_bind; [apply or_loop; [intros; apply or_sha1_loop_step; eassumption | exact Hc]|].
    intros. eapply or_bind; [apply or_add_hash_values; eassumption|]. intros. apply or_ret. cbn. auto.
Qed.
Lemma or_sha2_extend : forall K v v' i, leq v v' -> orel leq (t_sha2_extend K v i) (t_sha2_extend K v' i).
Proof. intros K v v' i H. unfold t_sha2_extend. destruct (Nat.ltb i 16); [exact I|]. repeat or1. Qed.
Lemma or_sha2_t : forall K v v' vi a b c d e f g a' b' c' d' e' f' g', leq v v' ->
  orel any (t_sha2_t K v vi a b c d e f g) (t_sha2_t K v' vi a' b' c' d' e' f' g').
Proof. intros. unfold t_sha2_t. same. repeat or1. Qed.
Lemma or_sha2_macro : forall K v v' hv hv' inv, leq v v' -> leq hv hv' -> orel leq (t_sha2_macro K v hv inv) (t_sha2_macro K v' hv' inv).
Proof.
  intros K v v' hv hv' [vi [[[[[[[i0 i1] i2] i3] i4] i5] i6] i7]] Hv Hh. unfold t_sha2_macro. do 7 or1.
  eapply or_bind; [apply or_sha2_t; exact Hv | intros ? ? ?]. repeat or1.
Qed.
Lemma or_sha2_loop_step : forall K v v' hv hv' i, leq v v' -> leq hv hv' -> orel leq (t_sha2_loop_step K v hv i) (t_sha2_loop_step K v' hv' i).
Proof.
  intros K v v' hv hv' i Hv Hh. unfold t_sha2_loop_step. do 7 or1. eapply or_bind; [apply or_sha2_t; exact Hv | intros ? ? ?]. repeat or1.
Qed.
Lemma or_sha2_block : forall K u p base buf buf' off ch ch' v v', leq buf buf' -> leq ch ch' -> leq v v' ->
  orel result_leq (t_sha2_block K u p base buf off ch v) (t_sha2_block K u p base buf' off ch' v').
Proof.
  intros K u p base buf buf' off ch ch' v v' Hb Hc Hv. unfold t_sha2_block. eapply or_bind; [apply or_emit|]. intros _ _ _. destruct u.
  - eapply or_bind; [apply or_copy_16x; assumption|]. intros. 
    eapply or_bind; [apply or_fold; [intros; apply or_sha2_extend; eassumption | eassumption]|]. intros.
    eapply or_bind; [apply or_fold; [intros; apply or_sha2_macro; eassumption | exact Hc]|].
    intros. eapply or_bind; [apply or_add_hash_values; eassumption|]. intros. apply or_ret. cbn. auto.
  - eapply or_bind; [apply or_copy_loop; eassumption|]. intros [o1 v1] [o2 v2] [X Y]. cbn in X, Y. subst o2.
    eapply or_bind; [apply or_loop; [intros; apply or_sha2_extend; eassumption | eassumption]|]. intros.
    eapply or_bind; [apply or_loop; [intros; apply or_sha2_loop_step; eassumption | exact Hc]|].
    intros. eapply or_bind; [apply or_add_hash_values; eassumption|]. intros. apply or_ret. cbn. auto.
Qed.
Lemma or_block : forall a u p base buf buf' off ch ch' v v', leq buf buf' -> leq ch ch' -> leq v v' ->
  orel result_leq (t_block a u p base buf off ch v) (t_block a u p base buf' off ch' v').
Proof.
  intros. destruct a; cbn [t_block];
    [apply or_md5_block | apply or_sha1_block | apply or_sha2_block | apply or_sha2_block | apply or_sha2_block]; assumption.
Qed.
Lemma or_transform_loop : forall E E' a p base fuel buf buf' off size ch ch' hv hv' v v',
  unrolled E = unrolled E' -> leq buf buf' -> leq ch ch' -> leq hv hv' -> leq v v' ->
  orel result_leq (t_transform_loop E a p base fuel buf off size ch hv v) (t_transform_loop E' a p base fuel buf' off size ch' hv' v').
Proof.
  intros E E' a p base fuel buf buf' off size ch ch' hv hv' v v' U Hb. revert off size ch ch' hv hv' v v'.
  induction fuel as [|f IH]; intros off size ch ch' hv hv' v v' Hc Hh Hv; cbn [t_transform_loop];
    (eapply or_bind; [apply or_cond|]); intros more ? <-; destruct more; cbn [negb]; try exact I;
    try (apply or_ret; cbn; auto; fail).
  rewrite <- U. eapply or_bind; [apply or_block; assumption|]. intros [[[o c] h] w] [[[o' c'] h'] w'] (-> & X & Y & Z).
  eapply or_bind; [apply or_emit|]. intros _ _ _. apply IH; assumption.
Qed.
