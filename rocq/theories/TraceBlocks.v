(* How many blocks the functions of Trace.v process. *)
From Coq Require Import Arith NArith ZArith List Bool Lia.
From Verif Require Import Words Tables Transform Machine Context Hash Trace TraceVocab.
Import ListNotations.
Open Scope N_scope.

Lemma blocks_app : forall t t', blocks (t ++ t') = (blocks t + blocks t')%nat.
Proof. intros t t'. induction t as [|e t IH]; [reflexivity|]. cbn [app blocks]. destruct e; rewrite ?IH; reflexivity. Qed.

(* ------------------------------------------------------------------ local arrays *)

Definition osil {A} (P : A -> Prop) (m : OT A) : Prop := match m with Some (t, a) => blocks t = 0%nat /\ P a | None => True end.
Definition any1 {A} (x : A) : Prop := True.
Lemma os_bind : forall {A B} P Q (m : OT A) (k : A -> OT B), osil P m -> (forall a, P a -> osil Q (k a)) -> osil Q (otbind m k).
Proof.
  intros A B P Q m k Hm Hk. destruct m as [[t a]|]; [|exact I]. destruct Hm as [X Y]. specialize (Hk a Y). cbn.
  destruct (k a) as [[t' b]|]; [|exact I]. destruct Hk as [Z W]. split; [rewrite blocks_app; lia | exact W].
Qed.
Lemma os_ret : forall {A} (P : A -> Prop) a, P a -> osil P (oret a).
Proof. intros. split; [reflexivity | assumption]. Qed.
Lemma os_lift : forall {A} (o : option A), osil any1 (match o with Some x => oret x | None => None end).
Proof. intros A [x|]; [split; reflexivity || exact I | exact I]. Qed.
Lemma os_get : forall {A} at_ (l : list A) i, osil any1 (tget at_ l i).
Proof. intros. unfold tget. eapply (os_bind any1); [split; [reflexivity | exact I]|]. intros. apply os_lift. Qed.
Lemma os_set : forall {A} at_ (l : list A) i v, osil any1 (tset at_ l i v).
Proof. intros. unfold tset. eapply (os_bind any1); [split; [reflexivity | exact I]|]. intros. apply os_lift. Qed.
Lemma os_mod : forall {A} at_ (l : list A) i f, osil any1 (tmod at_ l i f).
Proof. intros. unfold tmod. eapply os_bind; [apply os_get|]. intros. apply os_set. Qed.
Lemma os_cond : forall b, osil any1 (ocond b).
Proof. split; [reflexivity | exact I]. Qed.
Lemma os_fold : forall {A B} (f : A -> B -> OT A) l a, (forall a b, osil any1 (f a b)) -> osil any1 (tfold f l a).
Proof.
  intros A B f l a H. revert a. induction l as [|b l IH]; intro a; cbn [tfold]; [apply os_ret; exact I|].
  eapply os_bind; [apply H | intros; apply IH].
Qed.
Lemma os_loop : forall {A B} (f : A -> B -> OT A) l a, (forall a b, osil any1 (f a b)) -> osil any1 (tloop f l a).
Proof.
  intros A B f l a H. revert a. induction l as [|b l IH]; intro a; cbn [tloop];
    (eapply (os_bind any1); [split; [reflexivity | exact I]|]); intros _ _; [apply os_ret; exact I|].
  eapply os_bind; [apply H | intros; apply IH].
Qed.
Lemma os_bget : forall base buf off, osil any1 (t_bget base buf off).
Proof. intros. unfold t_bget. eapply (os_bind any1); [split; [reflexivity | exact I]|]. intros. apply os_lift. Qed.
Lemma os_copy_to_uint : forall w order base buf off, osil any1 (t_copy_to_uint w order base buf off).
Proof.
  intros. unfold t_copy_to_uint. destruct order; [exact I|]. eapply os_bind; [apply os_bget|]. intros. apply os_fold. intros.
  eapply os_bind; [apply os_bget|]. intros. apply os_ret. exact I.
Qed.
Lemma os_copy_16x : forall w order table base buf off v, osil any1 (t_copy_16x w order table base buf off v).
Proof. intros. apply os_fold. intros. eapply os_bind; [apply os_copy_to_uint|]. intros. apply os_set. Qed.
Lemma os_copy_loop : forall w order base buf off v, osil (fun x => fst x = off + 16 * (w / 8)) (t_copy_loop w order base buf off v).
Proof.
  intros. unfold t_copy_loop.
  assert (X : forall l off v, osil (fun x => fst x = off + N.of_nat (length l) * (w / 8))
    (tloop (fun st i => let '(off, vals) := st in v <<- t_copy_to_uint w order base buf off;
           vals' <<- tset values_at vals i v; oret (off + w / 8, vals')) l (off, v))).
  { clear. induction l as [|i l IH]; intros off v; cbn [tloop length].
    - split; [reflexivity|]. cbn [fst]. cbn. lia.
    - eapply (os_bind any1); [split; [reflexivity | exact I]|]. intros _ _.
      eapply (os_bind (fun x => fst x = off + w / 8)).
      + eapply os_bind; [apply os_copy_to_uint|]. intros. eapply os_bind; [apply os_set|]. intros. apply os_ret. reflexivity.
      + intros [o v'] Ho. cbn [fst] in Ho. subst o. specialize (IH (off + w / 8) v').
        match goal with |- osil _ ?m => destruct m as [[t x]|] end; [|exact I]. destruct IH as [Y Z]. split; [exact Y|]. rewrite Z. lia. }
  exact (X (seq 0 16) off v).
Qed.
Lemma os_add_hash_values : forall u p w n ch hv, osil any1 (t_add_hash_values u p w n ch hv).
Proof.
  intros. unfold t_add_hash_values. destruct u; [apply os_fold | apply os_loop]; intros; (eapply os_bind; [apply os_get|]); intros; apply os_mod.
Qed.
Lemma os_round : forall i a b c, osil any1 (t_round i a b c).
Proof.
  intros. unfold t_round. repeat (eapply os_bind; [apply os_cond|]; intros x _; destruct x; [apply os_ret; exact I|]). apply os_ret. exact I.
Qed.
Ltac os1 := first
  [ apply os_get | apply os_set | apply os_mod | apply os_ret; exact I | apply os_lift
  | eapply os_bind; [solve [apply os_get | apply os_set | apply os_mod | apply os_round | apply os_lift] | intros] ].
Lemma os_md5_macro : forall v hv inv, osil any1 (t_md5_macro v hv inv).
Proof. intros v hv [[[r vi] [[[i0 i1] i2] i3]] bi]. unfold t_md5_macro. repeat os1. Qed.
Lemma os_md5_loop_step : forall v hv i, osil any1 (t_md5_loop_step v hv i).
Proof. intros. unfold t_md5_loop_step. repeat os1. Qed.
Lemma os_sha1_extend : forall v i, osil any1 (t_sha1_extend v i).
Proof. intros. unfold t_sha1_extend. destruct (Nat.ltb i 16); [exact I|]. repeat os1. Qed.
Lemma os_sha1_macro : forall v hv inv, osil any1 (t_sha1_macro v hv inv).
Proof. intros v hv [[r vi] [[[[i0 i1] i2] i3] i4]]. unfold t_sha1_macro. repeat os1. Qed.
Lemma os_sha1_loop_step : forall v hv i, osil any1 (t_sha1_loop_step v hv i).
Proof. intros. unfold t_sha1_loop_step. repeat os1. Qed.
Lemma os_sha2_extend : forall K v i, osil any1 (t_sha2_extend K v i).
Proof. intros. unfold t_sha2_extend. destruct (Nat.ltb i 16); [exact I|]. repeat os1. Qed.
Lemma os_sha2_t : forall K v vi a b c d e f g, osil any1 (t_sha2_t K v vi a b c d e f g).
Proof. intros. unfold t_sha2_t. repeat os1. Qed.
Lemma os_sha2_macro : forall K v hv inv, osil any1 (t_sha2_macro K v hv inv).
Proof.
  intros K v hv [vi [[[[[[[i0 i1] i2] i3] i4] i5] i6] i7]]. unfold t_sha2_macro. do 7 os1. eapply os_bind; [apply os_sha2_t | intros]. repeat os1.
Qed.
Lemma os_sha2_loop_step : forall K v hv i, osil any1 (t_sha2_loop_step K v hv i).
Proof. intros. unfold t_sha2_loop_step. do 7 os1. eapply os_bind; [apply os_sha2_t | intros]. repeat os1. Qed.

Definition moved (n off : N) (r : block_result) : Prop := let '(o, _, _, _) := r in o = off + n.
Ltac tail L := intros; eapply os_bind; [apply os_add_hash_values|]; intros; apply os_ret; L.
Lemma os_block : forall a u p base buf off ch v, osil (moved (a_bs (alg_of a)) off) (t_block a u p base buf off ch v).
Proof.
  intros. destruct a; cbn [t_block alg_of md5_alg sha1_alg sha224_alg sha256_alg sha512_alg a_bs].
  - unfold t_md5_block. eapply (os_bind any1); [split; [reflexivity | exact I]|]. intros _ _. destruct u.
    + eapply os_bind; [apply os_copy_16x|]. intros. eapply os_bind; [apply os_fold; intros; apply os_md5_macro|]. tail ltac:(reflexivity).
    + eapply os_bind; [apply os_copy_loop|]. intros [o w] Ho. eapply os_bind; [apply os_loop; intros; apply os_md5_loop_step|].
      tail ltac:(exact Ho).
  - unfold t_sha1_block. eapply (os_bind any1); [split; [reflexivity | exact I]|]. intros _ _. destruct u.
    + eapply os_bind; [apply os_copy_16x|]. intros. eapply os_bind; [apply os_fold; intros; apply os_sha1_extend|]. intros.
      eapply os_bind; [apply os_fold; intros; apply os_sha1_macro|]. tail ltac:(reflexivity).
    + eapply os_bind; [apply os_copy_loop|]. intros [o w] Ho. eapply os_bind; [apply os_loop; intros; apply os_sha1_extend|]. intros.
      eapply os_bind; [apply os_loop; intros; apply os_sha1_loop_step|]. tail ltac:(exact Ho).
  - unfold t_sha2_block. eapply (os_bind any1); [split; [reflexivity | exact I]|]. intros _ _. destruct u.
    + eapply os_bind; [apply os_copy_16x|]. intros. eapply os_bind; [apply os_fold; intros; apply os_sha2_extend|]. intros.
      eapply os_bind; [apply os_fold; intros; apply os_sha2_macro|]. tail ltac:(reflexivity).
    + eapply os_bind; [apply os_copy_loop|]. intros [o w] Ho. eapply os_bind; [apply os_loop; intros; apply os_sha2_extend|]. intros.
      eapply os_bind; [apply os_loop; intros; apply os_sha2_loop_step|]. tail ltac:(exact Ho).
  - unfold t_sha2_block. eapply (os_bind any1); [split; [reflexivity | exact I]|]. intros _ _. destruct u.
    + eapply os_bind; [apply os_copy_16x|]. intros. eapply os_bind; [apply os_fold; intros; apply os_sha2_extend|]. intros.
      eapply os_bind; [apply os_fold; intros; apply os_sha2_macro|]. tail ltac:(reflexivity).
    + eapply os_bind; [apply os_copy_loop|]. intros [o w] Ho. eapply os_bind; [apply os_loop; intros; apply os_sha2_extend|]. intros.
      eapply os_bind; [apply os_loop; intros; apply os_sha2_loop_step|]. tail ltac:(exact Ho).
  - unfold t_sha2_block. eapply (os_bind any1); [split; [reflexivity | exact I]|]. intros _ _. destruct u.
    + eapply os_bind; [apply os_copy_16x|]. intros. eapply os_bind; [apply os_fold; intros; apply os_sha2_extend|]. intros.
      eapply os_bind; [apply os_fold; intros; apply os_sha2_macro|]. tail ltac:(reflexivity).
    + eapply os_bind; [apply os_copy_loop|]. intros [o w] Ho. eapply os_bind; [apply os_loop; intros; apply os_sha2_extend|]. intros.
      eapply os_bind; [apply os_loop; intros; apply os_sha2_loop_step|]. tail ltac:(exact Ho).
Qed.
Lemma bs_pos : forall a, 0 < a_bs (alg_of a).
Proof. intros []; reflexivity. Qed.
Lemma transform_loop_blocks : forall E a p base fuel buf off size ch hv v,
  match t_transform_loop E a p base fuel buf off size ch hv v with
  | Some (t, (o, _, _, _)) => N.of_nat (blocks t) = size / a_bs (alg_of a) /\ o = off + a_bs (alg_of a) * (size / a_bs (alg_of a))
  | None => True
  end.
Proof.
  intros E a p base fuel. pose proof (bs_pos a) as B.
  induction fuel as [|f IH]; intros buf off size ch hv v; cbn [t_transform_loop]; unfold otbind at 1; unfold ocond, oemit, oret; cbn [otbind];
    destruct (N.ltb_spec size (a_bs (alg_of a))) as [H|H]; cbn [negb]; cbn [otbind oret blocks app];
    try exact I; try (rewrite N.div_small by exact H; split; [reflexivity | lia]).
  pose proof (os_block a (unrolled E) p base buf off ch v) as X.
  destruct (t_block a (unrolled E) p base buf off ch v) as [[t [[[o c] h] w]]|]; cbn [otbind]; [|exact I].
  destruct X as [X Y]. cbn in Y. subst o. specialize (IH buf (off + a_bs (alg_of a)) (size - a_bs (alg_of a)) c h w).
  destruct (t_transform_loop E a p base f buf (off + a_bs (alg_of a)) (size - a_bs (alg_of a)) c h w) as [[t' [[[o' c'] h'] w']]|]; cbn [otbind]; [|exact I].
  cbn [blocks app]. rewrite blocks_app. cbn [blocks app]. rewrite X. destruct IH as [IH1 IH2].
  assert (D : size / a_bs (alg_of a) = 1 + (size - a_bs (alg_of a)) / a_bs (alg_of a)).
  { replace size with (1 * a_bs (alg_of a) + (size - a_bs (alg_of a))) at 1 by lia. rewrite N.div_add_l by lia. reflexivity. }
  rewrite D. split; [lia | rewrite IH2; lia].
Qed.

(* ------------------------------------------------------------------ memory *)

Lemma tbind_inv : forall {A B} (m : T A) (k : A -> T B) s t b s2, tbind m k s = TDone t b s2 ->
  exists t1 a s1 t2, m s = TDone t1 a s1 /\ k a s1 = TDone t2 b s2 /\ blocks t = (blocks t1 + blocks t2)%nat.
Proof.
  intros A B m k s t b s2 H. unfold tbind in H. destruct (m s) as [t1 a s1|]; [|discriminate H].
  destruct (k a s1) as [t2 b' s2'|] eqn:K; [|discriminate H]. injection H as <- <- <-. exists t1, a, s1, t2.
  split; [reflexivity|]. split; [exact K | apply blocks_app].
Qed.
(* no block is processed *)
Definition sil {A} (m : T A) : Prop := forall s t a s1, m s = TDone t a s1 -> blocks t = 0%nat.
Lemma si_bind : forall {A B} (m : T A) (k : A -> T B), sil m -> (forall a, sil (k a)) -> sil (tbind m k).
Proof. intros A B m k Hm Hk s t b s2 H. apply tbind_inv in H as (t1 & a & s1 & t2 & X & Y & ->). rewrite (Hm _ _ _ _ X), (Hk _ _ _ _ _ Y). reflexivity. Qed.
Lemma si_quiet : forall {A} (m : M A), sil (quiet m).
Proof. intros A m s t a s1 H. unfold quiet in H. destruct (m s); [|discriminate H]. injection H as <- <- <-. reflexivity. Qed.
Lemma si_ret : forall {A} (a : A), sil (tret a).
Proof. intros A a s t b s1 H. injection H as <- <- <-. reflexivity. Qed.
Lemma si_emit : forall e, blocks [e] = 0%nat -> sil (emit e).
Proof. intros e He s t b s1 H. injection H as <- <- <-. exact He. Qed.
Lemma si_cond : forall b, sil (cond b).
Proof. intros. apply si_bind; [apply si_emit; reflexivity | intro; apply si_ret]. Qed.
Lemma si_error_set : forall e k, sil (t_error_set e k).
Proof. intros. apply si_bind; [apply si_emit; reflexivity | intro; apply si_quiet]. Qed.
Lemma si_fail : forall e k, sil (t_fail e k).
Proof. intros. apply si_bind; [apply si_error_set | intro; apply si_ret]. Qed.
Lemma si_bytes : forall at_ n off, sil (t_bytes at_ n off).
Proof. intros at_ n. induction n; intro off; [apply si_ret|]. apply si_bind; [apply si_emit; reflexivity | intro; apply IHn]. Qed.
Lemma si_mfold : forall {A B} (f : A -> B -> T A) l a, (forall a b, sil (f a b)) -> sil (t_mfold f l a).
Proof. intros A B f l a H. revert a. induction l; intro x; [apply si_ret|]. apply si_bind; [apply H | exact IHl]. Qed.
Lemma si_mloop : forall {A B} (f : A -> B -> T A) l a, (forall a b, sil (f a b)) -> sil (t_mloop f l a).
Proof.
  intros A B f l a H. revert a. induction l; intro x; (apply si_bind; [apply si_emit; reflexivity | intros _]); [apply si_ret|].
  apply si_bind; [apply H | exact IHl].
Qed.
Ltac si := unfold rd, wr, not_one, t_mset, t_mcopy, t_mfree, t_read_byte, t_write_byte; repeat first
  [ apply si_ret | apply si_quiet | apply si_error_set | apply si_fail | apply si_cond | apply si_bytes | apply si_emit; reflexivity
  | apply si_bind; [|intro] | match goal with |- sil (match ?x with _ => _ end) => destruct x end ].
Lemma si_final_checks : forall E A l n, sil (local (t_final_checks E A l n)).
Proof.
  intros E A l n. assert (X : osil any1 (t_final_checks E A l n)).
  { induction l as [|[|] l IH]; cbn [t_final_checks]; [apply os_ret; exact I| |]; (eapply os_bind; [apply os_cond|]); intros b _; destruct b;
      try exact IH; apply os_ret; exact I. }
  intros s t a s1 H. unfold local in H. destruct (t_final_checks E A l n) as [[t' r]|]; [|discriminate H]. injection H as <- <- <-. apply X.
Qed.
Lemma si_initialize : forall E a c e, sil (t_initialize E a c e).
Proof. intros. unfold t_initialize. cbv zeta. si. Qed.
Lemma si_free : forall a c e, sil (t_free a c e).
Proof. intros. unfold t_free. si. Qed.
Lemma si_store_digest : forall E a p h, sil (t_store_digest E a p h).
Proof. intros. unfold t_store_digest. cbv zeta. destruct (unrolled E); [apply si_mfold; intros; si|]. apply si_bind; [apply si_mloop; intros; si | intro; si]. Qed.
Lemma si_on_error : forall a c, sil (t_calculate_on_error a c).
Proof. intros. unfold t_calculate_on_error. apply si_bind; [si|intro]. destruct c; [|si]. apply si_bind; [apply si_free | intro; si]. Qed.
Lemma si_xor : forall i o k n, sil (t_hmac_xor i o k n).
Proof. intros. apply si_mloop. intros. unfold t_hmac_xor_step. si. Qed.
Lemma si_allocate_bytes : forall E n, sil (t_allocate_bytes E n).
Proof. intros. unfold t_allocate_bytes. si. Qed.

(* what is known of a quiet step *)
Lemma quiet_inv : forall {A} (m : M A) s t a s1, quiet m s = TDone t a s1 -> m s = Done a s1 /\ blocks t = 0%nat.
Proof. intros A m s t a s1 H. unfold quiet in H. destruct (m s); [|discriminate H]. injection H as <- <- <-. auto. Qed.
Lemma lift_inv : forall {A} (o : option A) s a s1, lift o s = Done a s1 -> o = Some a /\ s1 = s.
Proof. intros A [x|] s a s1 H; [|discriminate H]. injection H as <- <-. auto. Qed.
Lemma load_inv : forall a p s c s1, load_ctx a p s = Done c s1 -> get_obj s p = Some (OCtx a c) /\ s1 = s.
Proof.
  intros a p s c s1 H. unfold load_ctx in H. destruct (get_obj s p) as [[l|b d|q]|]; try discriminate H.
  destruct (algid_eqb a b) eqn:Q; [|discriminate H]. injection H as -> ->. destruct a, b; try discriminate Q; auto.
Qed.
Lemma put_get : forall p o s s1, put_obj p o s = Some s1 -> get_obj s1 p = Some o.
Proof.
  intros p o s s1 H. unfold put_obj in H. destruct (nth_error (mem s) p) as [c|] eqn:N; [|discriminate H].
  destruct (live c); [|discriminate H]. injection H as <-. unfold get_obj. cbn [mem set_mem].
  assert (X : nth_error (replace (mem s) p (mk_cell true (knd c) o)) p = Some (mk_cell true (knd c) o)).
  { clear -N. revert p N. induction (mem s) as [|x l IH]; intros [|p] N; try discriminate N; [reflexivity|]. cbn. apply IH. exact N. }
  rewrite X. reflexivity.
Qed.
Lemma store_inv : forall a p c s x s1, store_ctx a p c s = Done x s1 -> get_obj s1 p = Some (OCtx a c).
Proof.
  intros a p c s x s1 H. unfold store_ctx in H. destruct (get_obj s p) as [[l|b d|q]|]; try discriminate H.
  destruct (algid_eqb a b); [|discriminate H]. destruct (put_obj p (OCtx a c) s) eqn:P; [|discriminate H]. injection H as _ <-. exact (put_get _ _ _ _ P).
Qed.
Lemma get_obj_mem : forall s s1 p, mem s1 = mem s -> get_obj s1 p = get_obj s p.
Proof. intros s s1 p H. unfold get_obj. rewrite H. reflexivity. Qed.

Ltac inv H := apply tbind_inv in H as (?t1 & ?v & ?s1 & ?t2 & ?X & H & ?Hb).
Tactic Notation "inw" hyp(H) "as" ident(v) := apply tbind_inv in H as (?t1 & v & ?s1 & ?t2 & ?X & H & ?Hb).
(* a condition: its value is kept *)
Lemma cond_inv : forall b s t x s1, cond b s = TDone t x s1 -> x = b /\ s1 = s /\ blocks t = 0%nat.
Proof. intros b s t x s1 H. injection H as <- <- <-. auto. Qed.
Lemma emit_inv : forall e s t x s1, emit e s = TDone t x s1 -> s1 = s /\ blocks t = blocks [e].
Proof. intros e s t x s1 H. injection H as <- <- <-. auto. Qed.
Lemma ret_inv : forall {A} (a : A) s t x s1, tret a s = TDone t x s1 -> x = a /\ s1 = s /\ blocks t = 0%nat.
Proof. intros A a s t x s1 H. injection H as <- <- <-. auto. Qed.
Lemma fail_inv : forall e k s t x s1, t_fail e k s = TDone t x s1 -> x = (-1)%Z.
Proof. intros e k s t x s1 H. unfold t_fail, t_error_set, tbind, emit, quiet, error_set, tret in H. injection H as _ <- _. reflexivity. Qed.

Section WithEnv.
  Variable E : env.
  Lemma to_ssize_small : forall n, n <= ssize_max E -> to_ssize E n = Z.of_N n.
  Proof. intros n H. unfold to_ssize. destruct (N.leb_spec n (ssize_max E)); [reflexivity | lia]. Qed.

  Lemma transform_blocks : forall a p base buf size e s t r s1,
    t_transform E a (Some p) base (Some buf) size e s = TDone t r s1 -> r <> (-1)%Z ->
    size <= ssize_max E /\ N.of_nat (blocks t) = size / a_bs (alg_of a) /\
    r = Z.of_N (a_bs (alg_of a) * (size / a_bs (alg_of a))) /\
    exists c h, get_obj s p = Some (OCtx a c) /\ get_obj s1 p = Some (OCtx a (mk_ctx (c_count c) h (c_boff c) (c_block c))).
  Proof.
    intros a p base buf size e s t r s1 H Hr. unfold t_transform in H. cbv zeta in H.
    inv H. apply cond_inv in X as (_ & -> & C1). inv H. apply cond_inv in X as (_ & -> & C2).
    inv H. apply cond_inv in X as (-> & -> & C3). destruct (N.ltb_spec (ssize_max E) size) as [L|L]; [apply fail_inv in H; contradiction|].
    inv H. apply quiet_inv in X as [X C4]. apply load_inv in X as [G ->].
    inv H. apply quiet_inv in X as [X C5]. injection X as <- <-.
    inv H. unfold local in X.
    match type of X with match t_transform_loop E a p base ?f ?b ?o ?z ?c ?h ?w with _ => _ end = _ =>
      pose proof (transform_loop_blocks E a p base f b o z c h w) as Q;
      destruct (t_transform_loop E a p base f b o z c h w) as [[tl [[[o' ch] hv] vv]]|] end; [|discriminate X].
    injection X as <- <- <-. destruct Q as [Q1 Q2].
    inv H. apply quiet_inv in X as [X C6]. apply store_inv in X.
    inv H. apply emit_inv in X0 as [-> C7]. inv H. apply quiet_inv in X0 as [X0 C8]. apply lift_inv in X0 as [_ ->].
    inv H. apply emit_inv in X0 as [-> C9]. inv H. apply quiet_inv in X0 as [X0 C10]. apply lift_inv in X0 as [_ ->].
    inv H. apply quiet_inv in X0 as [X0 C11]. injection X0 as _ <-. apply ret_inv in H as (-> & -> & C12).
    cbn [blocks] in *. split; [exact L|]. split; [lia|]. rewrite Q2.
    assert (a_bs (alg_of a) * (size / a_bs (alg_of a)) <= size) by (apply N.mul_div_le; pose proof (bs_pos a); lia).
    split; [rewrite to_ssize_small by lia; f_equal; lia|].
    do 2 eexists. split; [exact G|]. exact X.
  Qed.

  Lemma ssize_lt : ssize_max E < size_mod E /\ size_mod E <= 2 ^ 64.
  Proof. unfold ssize_max, size_mod. destruct (plat64 E); split; reflexivity || discriminate. Qed.
  Lemma count_back : forall k, k <= ssize_max E -> Z.to_N (Z.of_N k mod 2 ^ 64) = k /\ k mod size_mod E = k.
  Proof.
    intros k H. pose proof ssize_lt as [X Y]. split; [|apply N.mod_small; lia].
    rewrite Z.mod_small; [apply N2Z.id|]. split; [lia|]. change (2 ^ 64)%Z with (Z.of_N (2 ^ 64)). lia.
  Qed.
  Lemma update_tail_blocks : forall a p bp buf off size e s t s1 c,
    t_update_tail E a p bp buf off size e s = TDone t 1%Z s1 -> get_obj s p = Some (OCtx a c) -> c_boff c = 0 ->
    N.of_nat (blocks t) = size / a_bs (alg_of a) /\
    exists c', get_obj s1 p = Some (OCtx a c') /\ c_boff c' = size mod a_bs (alg_of a).
  Proof.
    intros a p bp buf off size e s t s1 c H G Z. unfold t_update_tail in H. cbv zeta in H. pose proof (bs_pos a) as B.
    inv H. apply cond_inv in X as (-> & -> & C1). inv H.
    destruct (N.ltb_spec 0 size) as [L|L].
    - inw X as pc. destruct (Z.eqb_spec pc (-1)) as [->|Hv].
      + inv X. apply cond_inv in X1 as (-> & -> & _). inv X. apply ret_inv in X as (-> & -> & _).
        apply ret_inv in H as (? & _ & _). discriminate.
      + apply transform_blocks in X0 as (S & Q1 & -> & c1 & h & G1 & G2); [|exact Hv].
        inv X. apply cond_inv in X0 as (-> & -> & C2). destruct (Z.eqb_spec (Z.of_N (a_bs (alg_of a) * (size / a_bs (alg_of a)))) (-1)); [lia|].
        inv X. apply emit_inv in X0 as [-> C3]. inv X. apply emit_inv in X0 as [-> C4].
        inw X as c3. apply quiet_inv in X0 as [X0 C5]. apply load_inv in X0 as [G3 ->].
        inv X. apply quiet_inv in X0 as [X0 C6]. apply store_inv in X0. apply ret_inv in X as (-> & -> & C7).
        assert (K : a_bs (alg_of a) * (size / a_bs (alg_of a)) <= size) by (apply N.mul_div_le; lia).
        destruct (count_back (a_bs (alg_of a) * (size / a_bs (alg_of a)))) as [K1 K2]; [lia|]. rewrite K1, K2 in H.
        assert (c_boff c3 = 0) as Z1.
        { rewrite G2 in G3. injection G3 as <-. cbn. rewrite G in G1. injection G1 as <-. exact Z. }
        assert (R : usub (size_mod E) size (a_bs (alg_of a) * (size / a_bs (alg_of a))) = size mod a_bs (alg_of a)).
        { pose proof ssize_lt. unfold usub. rewrite (N.mod_eq size (a_bs (alg_of a))) by lia.
          replace (size + (size_mod E - a_bs (alg_of a) * (size / a_bs (alg_of a))))
            with (size - a_bs (alg_of a) * (size / a_bs (alg_of a)) + 1 * size_mod E) by lia.
          rewrite N.mod_add by lia. apply N.mod_small. lia. }
        rewrite R in H. cbn [blocks] in *.
        inv H. apply cond_inv in X as (-> & -> & C8). destruct (N.ltb_spec 0 (size mod a_bs (alg_of a))) as [L1|L1].
        * inv H. apply cond_inv in X as (-> & -> & C9). destruct (N.leb_spec (a_bs (alg_of a)) (size mod a_bs (alg_of a))) as [L2|L2];
            [apply fail_inv in H; discriminate H|].
          inv H. apply emit_inv in X as [-> C10].
          inv H. apply quiet_inv in X as [X C11]. apply load_inv in X as [G4 ->].
          inv H. apply quiet_inv in X as [X C12]. apply lift_inv in X as [_ ->].
          inv H. apply quiet_inv in X as [X C13]. apply lift_inv in X as [_ ->].
          inv H. apply emit_inv in X as [-> C14].
          inv H. apply quiet_inv in X as [X C15]. apply store_inv in X. apply ret_inv in H as (_ & -> & C16).
          cbn [blocks] in *. split; [lia|]. eexists. split; [exact X | reflexivity].
        * apply ret_inv in H as (_ & -> & C9). split; [lia|]. eexists. split; [exact X0|]. cbn. lia.
    - apply ret_inv in X as (-> & -> & C2). assert (size = 0) as -> by lia.
      inv H. apply cond_inv in X as (-> & -> & C3). cbn [N.ltb N.compare] in H. apply ret_inv in H as (_ & -> & C4).
      rewrite N.div_0_l, N.mod_0_l by lia. split; [lia|]. exists c. split; [exact G | exact Z].
  Qed.
  Lemma update_blocks : forall a p bp size e s t s1 c,
    t_update E a (Some p) bp size e s = TDone t 1%Z s1 -> get_obj s p = Some (OCtx a c) -> c_boff c < a_bs (alg_of a) ->
    N.of_nat (blocks t) = (c_boff c + size) / a_bs (alg_of a) /\
    exists c', get_obj s1 p = Some (OCtx a c') /\ c_boff c' = (c_boff c + size) mod a_bs (alg_of a).
  Proof.
    intros a p bp size e s t s1 c H G Z. unfold t_update in H. cbv zeta in H. pose proof (bs_pos a) as B.
    inv H. apply cond_inv in X as (_ & -> & C1). inv H. apply cond_inv in X as (_ & -> & C2).
    destruct bp as [bp|]; [|apply fail_inv in H; discriminate H].
    inv H. apply cond_inv in X as (-> & -> & C3). destruct (N.ltb_spec (ssize_max E) size) as [L|L]; [apply fail_inv in H; discriminate H|].
    inv H. apply cond_inv in X as (-> & -> & C4). destruct (N.eqb_spec size 0) as [->|L0].
    { apply ret_inv in H as (_ & -> & C5). rewrite N.add_0_r, N.div_small, N.mod_small by exact Z. split; [lia|]. eauto. }
    inv H. apply quiet_inv in X as [X C5]. apply load_inv in X as [G1 ->]. rewrite G in G1. injection G1 as <-.
    inv H. apply quiet_inv in X as [X C6]. 
    assert (s0 = s) as -> by (unfold view in X; destruct (get_obj s (fst bp)) as [[l|x y|q]|]; try discriminate X;
      destruct (snd bp <=? N.of_nat (length l)); [injection X as _ <-; reflexivity | discriminate X]).
    inv H. apply emit_inv in X0 as [-> C7].
    inv H. apply cond_inv in X0 as (-> & -> & C8). cbn [blocks] in *. destruct (N.ltb_spec 0 (c_boff c)) as [L1|L1].
    2:{ apply update_tail_blocks with (c := c) in H as [Q1 Q2]; [|exact G | lia]. assert (c_boff c = 0) as -> by lia. cbn [N.add].
        split; [lia | exact Q2]. }
    inv H. apply emit_inv in X0 as [-> C9].
    inv H. apply cond_inv in X0 as (-> & -> & C10). destruct (N.leb_spec (a_bs (alg_of a)) (c_boff c)); [lia|].
    inv H. apply emit_inv in X0 as [-> C11]. inv H. apply cond_inv in X0 as (-> & -> & C12).
    inv H. apply emit_inv in X0 as [-> C13]. inv H. apply emit_inv in X0 as [-> C14].
    inv H. apply quiet_inv in X0 as [X0 C15]. apply lift_inv in X0 as [_ ->].
    inv H. apply quiet_inv in X0 as [X0 C16]. apply lift_inv in X0 as [_ ->].
    inv H. apply emit_inv in X0 as [-> C17]. inv H. apply emit_inv in X0 as [-> C18].
    inv H. apply quiet_inv in X0 as [X0 C19]. apply store_inv in X0.
    inv H. apply emit_inv in X1 as [-> C20]. inv H. apply cond_inv in X1 as (-> & -> & C21). cbn [blocks] in *.
    destruct (N.ltb_spec size (a_bs (alg_of a) - c_boff c)) as [L2|L2].
    - destruct (N.ltb_spec (c_boff c + size) (a_bs (alg_of a))); [|lia]. apply ret_inv in H as (_ & -> & C22).
      rewrite N.div_small, N.mod_small by lia. split; [lia|]. eexists. split; [exact X0 | reflexivity].
    - destruct (N.ltb_spec (c_boff c + (a_bs (alg_of a) - c_boff c)) (a_bs (alg_of a))); [lia|].
      inw H as pc. destruct (Z.eqb_spec pc (-1)) as [->|Hv].
      { inv H. apply cond_inv in X2 as (-> & -> & _). apply fail_inv in H. discriminate H. }
      apply transform_blocks in X1 as (S & Q1 & -> & c1 & h & G1 & G2); [|exact Hv].
      inv H. apply cond_inv in X1 as (-> & -> & C22).
      cbv iota in H.
      inv H. apply emit_inv in X1 as [-> C23]. inv H. apply emit_inv in X1 as [-> C24]. inv H. apply emit_inv in X1 as [-> C25].
      inv H. apply quiet_inv in X1 as [X1 C26]. apply load_inv in X1 as [G3 ->].
      inv H. apply quiet_inv in X1 as [X1 C27]. apply store_inv in X1.
      eapply update_tail_blocks in H as [R1 R2]; [|exact X1 | reflexivity]. cbn [blocks] in *.
      rewrite N.div_same in Q1 by lia.
      replace (c_boff c + size) with (1 * a_bs (alg_of a) + (size - (a_bs (alg_of a) - c_boff c))) by lia.
      rewrite N.div_add_l by lia. split; [lia|].
      rewrite (N.add_comm (1 * _)). rewrite N.mod_add by lia. exact R2.
  Qed.
  Lemma finalize_blocks : forall a p h n e s t s1 c,
    t_finalize E a (Some p) h n e s = TDone t 1%Z s1 -> get_obj s p = Some (OCtx a c) ->
    N.of_nat (blocks t) = if a_thr (alg_of a) <? c_boff c then 2 else 1.
  Proof.
    intros a p h n e s t s1 c H G. unfold t_finalize in H. cbv zeta in H. pose proof (bs_pos a) as B.
    inv H. apply cond_inv in X as (_ & -> & C1). inv H. apply cond_inv in X as (_ & -> & C2).
    destruct h as [hp|]; [|apply fail_inv in H; discriminate H].
    inw H as chk. assert (s0 = s) as -> by (unfold local in X; destruct (t_final_checks E (alg_of a) (a_checks (alg_of a)) n) as [[? ?]|];
      [injection X as _ _ <-; reflexivity | discriminate X]).
    apply si_final_checks in X. destruct chk as [k|]; [apply fail_inv in H; discriminate H|].
    inv H. apply quiet_inv in X0 as [X0 C3]. apply load_inv in X0 as [G1 ->]. rewrite G in G1. injection G1 as <-.
    inv H. apply emit_inv in X0 as [-> C4]. inv H. apply cond_inv in X0 as (-> & -> & C5).
    inv H. apply emit_inv in X0 as [-> C6]. inv H. apply emit_inv in X0 as [-> C7].
    inv H. apply quiet_inv in X0 as [X0 C8]. apply lift_inv in X0 as [_ ->].
    inv H. apply emit_inv in X0 as [-> C9]. inv H. apply emit_inv in X0 as [-> C10].
    inv H. apply quiet_inv in X0 as [X0 C11]. apply lift_inv in X0 as [_ ->].
    inv H. apply emit_inv in X0 as [-> C12]. inv H. apply emit_inv in X0 as [-> C13].
    inv H. apply si_bytes in X0. inv H. apply quiet_inv in X1 as [X1 C14]. apply lift_inv in X1 as [_ ->].
    inv H. apply quiet_inv in X1 as [X1 C15]. cbn [blocks] in *.
    inw H as pc. destruct (Z.eqb_spec pc (-1)) as [->|Hv].
    { inv H. apply cond_inv in X3 as (-> & -> & _). apply fail_inv in H. discriminate H. }
    apply transform_blocks in X2 as (S & Q1 & -> & _); [|exact Hv].
    inv H. apply cond_inv in X2 as (-> & -> & C16).
    cbv iota in H.
    inv H. apply si_store_digest in X2. inv H. apply emit_inv in X3 as [-> C17].
    inv H. apply quiet_inv in X3 as [X3 C18]. apply ret_inv in H as (_ & -> & C19). cbn [blocks] in *.
    rewrite N.div_mul in Q1 by lia. destruct (a_thr (alg_of a) <? c_boff c); lia.
  Qed.
  Lemma initialize_context : forall a e s t r v s1, t_initialize E a (Some None) e s = TDone t (r, v) s1 -> r = 1%Z ->
    blocks t = 0%nat /\ exists p c, v = Some p /\ get_obj s1 p = Some (OCtx a c) /\ c_boff c = 0.
  Proof.
    intros a e s t r v s1 H Hr. split; [exact (si_initialize _ _ _ _ _ _ _ _ H)|]. subst r.
    unfold t_initialize in H. cbv zeta in H. inv H. apply cond_inv in X as (_ & -> & _). inv H. apply cond_inv in X as (_ & -> & _).
    inv H. apply emit_inv in X as [-> _]. inw H as np. inv H. apply cond_inv in X0 as (_ & -> & _).
    destruct np as [p|].
    - inv H. inv H. apply quiet_inv in X1 as [X1 _]. apply store_inv in X1. inv H. apply emit_inv in X2 as [-> _].
      inv H. apply quiet_inv in X2 as [X2 _]. apply load_inv in X2 as [G ->]. rewrite X1 in G. injection G as <-.
      inv H. apply quiet_inv in X2 as [X2 _]. apply store_inv in X2. apply ret_inv in H as (E1 & -> & _). injection E1 as ->.
      do 2 eexists. split; [reflexivity|]. split; [exact X2 | reflexivity].
    - inw H as z. apply fail_inv in X0. subst z. inv H. apply ret_inv in H as (E1 & _ & _). discriminate E1.
  Qed.

  (* the blocks of a message of n bytes with its padding *)
  Definition nblocks (a : algid) (n : N) : N := (n + 1 + a_bs (alg_of a) / 8 + (a_bs (alg_of a) - 1)) / a_bs (alg_of a).
  Lemma nblocks_eq : forall a n, n / a_bs (alg_of a) + (if a_thr (alg_of a) <? n mod a_bs (alg_of a) then 2 else 1) = nblocks a n.
  Proof.
    intros a n. unfold nblocks. pose proof (bs_pos a) as B.
    assert (X : a_bs (alg_of a) / 8 = a_bs (alg_of a) - 1 - a_thr (alg_of a) /\ a_thr (alg_of a) < a_bs (alg_of a) /\
                1 + a_bs (alg_of a) / 8 < a_bs (alg_of a)) by (destruct a; repeat split; reflexivity || discriminate).
    destruct X as (X & Y & Z). set (bs := a_bs (alg_of a)) in *. set (th := a_thr (alg_of a)) in *.
    pose proof (N.div_mod n bs) as D. pose proof (N.mod_lt n bs) as M. 
    destruct (N.ltb_spec th (n mod bs)) as [L|L].
    - apply N.div_unique with (r := n mod bs - th - 1); nia.
    - apply N.div_unique with (r := n mod bs + (bs - 1 - th)); nia.
  Qed.

  Ltac ok H := match type of H with (if ?b then _ else _) _ = _ => destruct b end.
  Lemma not_one_inv : forall r s t x s1, not_one r s = TDone t x s1 -> x = negb (r =? 1)%Z /\ s1 = s /\ blocks t = 0%nat.
  Proof. intros. unfold not_one in *. now apply cond_inv in H. Qed.
  Lemma on_error_inv : forall a c s t x s1, t_calculate_on_error a c s = TDone t x s1 -> x = (-1)%Z.
  Proof.
    intros a c s t x s1 H. unfold t_calculate_on_error in H. inv H. destruct c; [inv H|]; apply ret_inv in H as (-> & _ & _); reflexivity.
  Qed.
  Ltac failed H := exfalso; inv H; apply on_error_inv in H; discriminate H.
  Lemma calculate_blocks : forall a buffer size hash n e s t s1,
    t_calculate E a buffer size hash n e s = TDone t 1%Z s1 -> N.of_nat (blocks t) = nblocks a size.
  Proof.
    intros a buffer size hash n e s t s1 H. unfold t_calculate in H. cbv zeta in H.
    inw H as rv. destruct rv as [r v]. cbn [fst snd] in H. inv H. apply not_one_inv in X0 as (-> & -> & C1).
    destruct (Z.eqb_spec r 1) as [Hr|_]; cbn [negb] in H; [|failed H].
    apply initialize_context in X as (C2 & p & c & -> & G & Z); [|exact Hr].
    inw H as rr. inv H. apply not_one_inv in X0 as (-> & -> & C3). destruct (Z.eqb_spec rr 1) as [->|_]; cbn [negb] in H; [|failed H].
    eapply update_blocks in X as (Q1 & c' & G' & Z'); [|exact G | rewrite Z; apply bs_pos].
    inw H as rr. inv H. apply not_one_inv in X0 as (-> & -> & C4). destruct (Z.eqb_spec rr 1) as [->|_]; cbn [negb] in H; [|failed H].
    eapply finalize_blocks in X; [|exact G'].
    inw H as rv. apply si_free in X0. destruct rv as [r' v']. cbn [fst snd] in H. inv H. apply not_one_inv in X1 as (-> & -> & C5).
    destruct (negb (r' =? 1)%Z); [failed H|]. apply ret_inv in H as (_ & _ & C6).
    rewrite Z in Q1, Z'. cbn [N.add] in Q1, Z'. rewrite Z' in X. rewrite <- nblocks_eq.
    destruct (a_thr (alg_of a) <? size mod a_bs (alg_of a)); lia.
  Qed.
  Lemma pass_blocks : forall a pad buffer size h n e s t s1, t_hmac_pass E a pad buffer size h n e s = TDone t None s1 ->
    N.of_nat (blocks t) = nblocks a (a_bs (alg_of a) + size).
  Proof.
    intros a pad buffer size h n e s t s1 H. unfold t_hmac_pass in H. cbv zeta in H.
    assert (HB : hmac_block_size a = a_bs (alg_of a)) by (destruct a; reflexivity). rewrite HB in H. pose proof (bs_pos a) as B.
    inw H as rv. destruct rv as [r v]. cbn [fst snd] in H. inv H. apply not_one_inv in X0 as (-> & -> & C1).
    destruct (Z.eqb_spec r 1) as [Hr|_]; cbn [negb] in H; [|inv H; apply ret_inv in H as (? & _); discriminate].
    apply initialize_context in X as (C2 & p & c & -> & G & Z); [|exact Hr].
    inw H as rr. inv H. apply not_one_inv in X0 as (-> & -> & C3).
    destruct (Z.eqb_spec rr 1) as [->|_]; cbn [negb] in H; [|inv H; apply ret_inv in H as (? & _); discriminate].
    eapply update_blocks in X as (Q1 & c' & G' & Z'); [|exact G | rewrite Z; exact B].
    inw H as rr. inv H. apply not_one_inv in X0 as (-> & -> & C4).
    destruct (Z.eqb_spec rr 1) as [->|_]; cbn [negb] in H; [|inv H; apply ret_inv in H as (? & _); discriminate].
    eapply update_blocks in X as (Q2 & c2 & G2 & Z2); [|exact G' | rewrite Z'; apply N.mod_lt; lia].
    inw H as rr. inv H. apply not_one_inv in X0 as (-> & -> & C5).
    destruct (Z.eqb_spec rr 1) as [->|_]; cbn [negb] in H; [|inv H; apply ret_inv in H as (? & _); discriminate].
    eapply finalize_blocks in X; [|exact G2].
    inw H as rv. apply si_free in X0. destruct rv as [r' v']. cbn [fst snd] in H. inv H. apply not_one_inv in X1 as (-> & -> & C6).
    destruct (negb (r' =? 1)%Z); [inv H; apply ret_inv in H as (? & _); discriminate|]. apply ret_inv in H as (_ & _ & C7).
    rewrite Z in Q1, Z'. cbn [N.add] in Q1, Z'. rewrite N.mod_same in Z' by lia. rewrite N.div_same in Q1 by lia.
    rewrite Z' in Q2, Z2. cbn [N.add] in Q2, Z2. rewrite Z2 in X. rewrite <- nblocks_eq.
    replace (a_bs (alg_of a) + size) with (size + 1 * a_bs (alg_of a)) by lia. rewrite N.mod_add, N.div_add by lia.
    destruct (a_thr (alg_of a) <? size mod a_bs (alg_of a)); lia.
  Qed.
  Lemma key_data_blocks : forall a kh kd key n e s t s1, t_hmac_key_data E a kh kd key n e s = TDone t None s1 ->
    N.of_nat (blocks t) = if n <=? a_bs (alg_of a) then 0 else nblocks a n.
  Proof.
    intros a kh kd key n e s t s1 H. unfold t_hmac_key_data in H. cbv zeta in H.
    assert (HB : hmac_block_size a = a_bs (alg_of a)) by (destruct a; reflexivity). rewrite HB in H. pose proof (bs_pos a) as B.
    inv H. apply cond_inv in X as (-> & -> & C0). destruct (n <=? a_bs (alg_of a)).
    - inv H. assert (Y : blocks t0 = 0%nat) by (revert X; apply (ltac:(si) : sil (t_mcopy (kd, 0) key n))).
      inv H. assert (Y2 : blocks t4 = 0%nat) by (revert X0; apply (ltac:(si) : sil (t_mset (kd, n) 0 (a_bs (alg_of a) - n)))).
      apply ret_inv in H as (_ & _ & C1). lia.
    - inw H as rv. destruct rv as [r v]. cbn [fst snd] in H. inv H. apply not_one_inv in X0 as (-> & -> & C1).
      destruct (Z.eqb_spec r 1) as [Hr|_]; cbn [negb] in H; [|inv H; apply ret_inv in H as (? & _); discriminate].
      apply initialize_context in X as (C2 & p & c & -> & G & Z); [|exact Hr].
      inw H as rr. inv H. apply not_one_inv in X0 as (-> & -> & C3).
      destruct (Z.eqb_spec rr 1) as [->|_]; cbn [negb] in H; [|inv H; apply ret_inv in H as (? & _); discriminate].
      eapply update_blocks in X as (Q1 & c' & G' & Z'); [|exact G | rewrite Z; exact B].
      inw H as rr. inv H. apply not_one_inv in X0 as (-> & -> & C4).
      destruct (Z.eqb_spec rr 1) as [->|_]; cbn [negb] in H; [|inv H; apply ret_inv in H as (? & _); discriminate].
      eapply finalize_blocks in X; [|exact G'].
      inw H as rv. apply si_free in X0. destruct rv as [r' v']. cbn [fst snd] in H. inv H. apply not_one_inv in X1 as (-> & -> & C6).
      destruct (negb (r' =? 1)%Z); [inv H; apply ret_inv in H as (? & _); discriminate|].
      match type of H with tbind ?m _ _ = _ => assert (Y : sil m) by si; inv H; apply Y in X1 end.
      match type of H with tbind ?m _ _ = _ => assert (Y' : sil m) by si; inv H; apply Y' in X2 end.
      apply ret_inv in H as (_ & _ & C7).
      rewrite Z in Q1, Z'. cbn [N.add] in Q1, Z'. rewrite Z' in X. rewrite <- nblocks_eq.
      destruct (a_thr (alg_of a) <? n mod a_bs (alg_of a)); lia.
  Qed.
  Lemma hmac_on_error_inv : forall a c o i k s t x s1, t_hmac_on_error a c o i k s = TDone t x s1 -> x = (-1)%Z.
  Proof. intros a c o i k s t x s1 H. unfold t_hmac_on_error in H. do 4 inv H. apply ret_inv in H as (-> & _). reflexivity. Qed.
  Ltac herr H := apply hmac_on_error_inv in H; discriminate H.
  Ltac quiet_step H := match type of H with tbind ?m _ _ = _ =>
    let Y := fresh "Y" in let X := fresh "W" in assert (Y : sil m) by (first [apply si_xor | apply si_allocate_bytes | si]); 
    apply tbind_inv in H as (?t & ?v & ?s & ?t & X & H & ?HB); apply Y in X; clear Y end.
  Lemma hmac_blocks : forall a key kn buffer size h n e s t s1,
    t_calculate_hmac E a key kn buffer size h n e s = TDone t 1%Z s1 ->
    N.of_nat (blocks t) = (if kn <=? a_bs (alg_of a) then 0 else nblocks a kn) +
      nblocks a (a_bs (alg_of a) + size) + nblocks a (a_bs (alg_of a) + a_hs (alg_of a)).
  Proof.
    intros a key kn buffer size h n e s t s1 H. unfold t_calculate_hmac in H.
    quiet_step H. apply tbind_inv in H as (tb & vb & sb & tc & X & H & Hb0).
    quiet_step H. apply ret_inv in H as (<- & _ & C1).
    enough (Q : N.of_nat (blocks tb) = (if kn <=? a_bs (alg_of a) then 0 else nblocks a kn) +
      nblocks a (a_bs (alg_of a) + size) + nblocks a (a_bs (alg_of a) + a_hs (alg_of a))) by lia.
    clear -X. rename X into H. unfold t_calculate_hmac_body in H. cbv zeta in H.
    quiet_step H. destruct key as [kp|]; [|apply fail_inv in H; discriminate H].
    inv H. apply cond_inv in X as (-> & -> & C2). destruct (ssize_max E <? kn); [apply fail_inv in H; discriminate H|].
    inv H. apply cond_inv in X as (-> & -> & C3). destruct (n <? a_hs (alg_of a)); [apply fail_inv in H; discriminate H|].
    quiet_step H. quiet_step H. 
    match type of H with (match ?x with _ => _ end) _ = _ => destruct x as [kd|] end; [|inv H; herr H].
    apply tbind_inv in H as (tk & vk & sk & td & X & H & Hk). destruct vk as [c|]; [herr H|]. apply key_data_blocks in X.
    quiet_step H. quiet_step H.
    match type of H with (match ?x with _ => _ end) _ = _ => destruct x as [ip|] end; [|inv H; herr H].
    quiet_step H. quiet_step H. quiet_step H.
    match type of H with (match ?x with _ => _ end) _ = _ => destruct x as [op|] end; [|inv H; herr H].
    quiet_step H. quiet_step H.
    apply tbind_inv in H as (ti & vi & si_ & tj & XI & H & Hi). destruct vi as [c|]; [herr H|]. apply pass_blocks in XI.
    apply tbind_inv in H as (to & vo & so & tp & XO & H & Ho). destruct vo as [c|]; [herr H|]. apply pass_blocks in XO.
    do 6 quiet_step H. apply ret_inv in H as (_ & _ & C9). destruct (kn <=? a_bs (alg_of a)); lia.
  Qed.
End WithEnv.
