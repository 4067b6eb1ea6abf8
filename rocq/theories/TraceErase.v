(* Taking the record away from the functions of Trace.v leaves the functions of the model. *)
From Coq Require Import Arith NArith ZArith List Bool.
From Verif Require Import Words Tables Transform Machine Context Hash Trace.
Import ListNotations.
Open Scope N_scope.

Definition oerase {A} (m : OT A) : option A := match m with Some (_, a) => Some a | None => None end.
Definition erase {A} (m : T A) : M A := fun s => match m s with TDone _ a s' => Done a s' | TUndef => Undef end.

(* ------------------------------------------------------------------ local arrays *)

Lemma oe_bind : forall {A B} (m : OT A) (o : option A) (k : A -> OT B) (k' : A -> option B),
  oerase m = o -> (forall a, oerase (k a) = k' a) -> oerase (otbind m k) = obind o k'.
Proof.
  intros A B m o k k' Hm Hk. subst o. destruct m as [[t a]|]; [|reflexivity]. cbn.
  rewrite <- Hk. destruct (k a) as [[t' b]|]; reflexivity.
Qed.
Lemma oe_emit : forall {B} e (k : unit -> OT B) o, oerase (k tt) = o -> oerase (otbind (oemit e) k) = o.
Proof. intros B e k o H. cbn. subst o. destruct (k tt) as [[t' b]|]; reflexivity. Qed.
Lemma oe_cond : forall {B} b (k : bool -> OT B) o, oerase (k b) = o -> oerase (otbind (ocond b) k) = o.
Proof. intros B b k o H. cbn. subst o. destruct (k b) as [[t' c]|]; reflexivity. Qed.
Lemma oe_pure : forall {A B} (m : OT A) a (k : A -> OT B) o,
  oerase m = Some a -> oerase (k a) = o -> oerase (otbind m k) = o.
Proof.
  intros A B m a k o Hm H. subst o. destruct m as [[t x]|]; [|discriminate Hm].
  cbn in Hm. injection Hm as ->. cbn. destruct (k a) as [[t' b]|]; reflexivity.
Qed.
Lemma oe_ret : forall {A} (a : A), oerase (oret a) = Some a.
Proof. reflexivity. Qed.
Lemma oe_lift : forall {A} (o : option A), oerase (match o with Some x => oret x | None => None end) = o.
Proof. intros A [x|]; reflexivity. Qed.
Lemma oe_get : forall {A} at_ (l : list A) i, oerase (tget at_ l i) = aget l i.
Proof. intros. unfold tget. apply oe_emit, oe_lift. Qed.
Lemma oe_set : forall {A} at_ (l : list A) i v, oerase (tset at_ l i v) = aset l i v.
Proof. intros. unfold tset. apply oe_emit, oe_lift. Qed.
Lemma oe_mod : forall {A} at_ (l : list A) i f, oerase (tmod at_ l i f) = amod l i f.
Proof. intros. unfold tmod, amod. apply oe_bind; [apply oe_get | intro; apply oe_set]. Qed.
Lemma oe_fold : forall {A B} (f : A -> B -> OT A) (g : A -> B -> option A) l a,
  (forall a b, oerase (f a b) = g a b) -> oerase (tfold f l a) = ofold g l a.
Proof.
  intros A B f g l a H. revert a. induction l as [|b l IH]; intro a; [reflexivity|].
  cbn [tfold ofold]. apply oe_bind; [apply H | exact IH].
Qed.
Lemma oe_loop : forall {A B} (f : A -> B -> OT A) (g : A -> B -> option A) l a,
  (forall a b, oerase (f a b) = g a b) -> oerase (tloop f l a) = ofold g l a.
Proof.
  intros A B f g l a H. revert a. induction l as [|b l IH]; intro a; [reflexivity|].
  cbn [tloop ofold]. apply oe_emit. apply oe_bind; [apply H | exact IH].
Qed.
Lemma oe_bget : forall base buf off, oerase (t_bget base buf off) = bget buf off.
Proof. intros. unfold t_bget. apply oe_emit, oe_lift. Qed.
Lemma oe_round : forall i a b c,
  oerase (t_round i a b c) = Some (if Nat.ltb i a then 1 else if Nat.ltb i b then 2 else if Nat.ltb i c then 3 else 4)%nat.
Proof.
  intros. unfold t_round. apply oe_cond. destruct (Nat.ltb i a); [reflexivity|].
  apply oe_cond. destruct (Nat.ltb i b); [reflexivity|]. apply oe_cond. destruct (Nat.ltb i c); reflexivity.
Qed.

Ltac oe := repeat first
  [ apply oe_ret | apply oe_get | apply oe_set | apply oe_mod | apply oe_bget | apply oe_lift
  | apply oe_emit
  | eapply oe_bind; [solve [apply oe_get | apply oe_set | apply oe_mod | apply oe_bget | apply oe_lift] | intro] ].

Lemma oe_copy_to_uint : forall w order base buf off,
  oerase (t_copy_to_uint w order base buf off) = copy_to_uint w order buf off.
Proof.
  intros. unfold t_copy_to_uint, copy_to_uint. destruct order as [|k rest]; [reflexivity|].
  apply oe_bind; [apply oe_bget|]. intro v. apply oe_fold. intros a b. oe.
Qed.
Lemma oe_copy_16x : forall w order table base buf off values,
  oerase (t_copy_16x w order table base buf off values) = copy_16x w order table buf off values.
Proof.
  intros. unfold t_copy_16x, copy_16x. apply oe_fold. intros a b.
  apply oe_bind; [apply oe_copy_to_uint|]. intro v. oe.
Qed.
Lemma oe_copy_loop : forall w order base buf off values,
  oerase (t_copy_loop w order base buf off values) = copy_loop w order buf off values.
Proof.
  intros. unfold t_copy_loop, copy_loop. apply oe_loop. intros [o v] b.
  apply oe_bind; [apply oe_copy_to_uint|]. intro x. oe.
Qed.
Lemma oe_add_hash_values : forall u p w n ch hv,
  oerase (t_add_hash_values u p w n ch hv) = add_hash_values w n ch hv.
Proof.
  intros. unfold t_add_hash_values, add_hash_values.
  destruct u; [apply oe_fold | apply oe_loop]; intros a b; oe.
Qed.

Lemma oe_md5_macro : forall values hv inv, oerase (t_md5_macro values hv inv) = md5_macro values hv inv.
Proof. intros values hv [[[r vi] [[[i0 i1] i2] i3]] bi]. unfold t_md5_macro, md5_macro. oe. Qed.
Lemma oe_md5_loop_step : forall values hv bi, oerase (t_md5_loop_step values hv bi) = md5_loop_step values hv bi.
Proof.
  intros. unfold t_md5_loop_step, md5_loop_step.
  do 3 (eapply oe_bind; [apply oe_get | intro]). eapply oe_pure; [apply oe_round|]. oe.
Qed.
Lemma oe_md5_block : forall u p base buf off ch values,
  oerase (t_md5_block u p base buf off ch values) = md5_block u buf off ch values.
Proof.
  intros. unfold t_md5_block, md5_block. apply oe_emit. destruct u.
  - apply oe_bind; [apply oe_copy_16x|]. intro v. apply oe_bind; [apply oe_fold; intros; apply oe_md5_macro|]. intro hv.
    apply oe_bind; [apply oe_add_hash_values|]. intro. apply oe_ret.
  - apply oe_bind; [apply oe_copy_loop|]. intros [o v]. apply oe_bind; [apply oe_loop; intros; apply oe_md5_loop_step|]. intro hv.
    apply oe_bind; [apply oe_add_hash_values|]. intro. apply oe_ret.
Qed.
Lemma oe_sha1_extend : forall values i, oerase (t_sha1_extend values i) = sha1_extend values i.
Proof. intros. unfold t_sha1_extend, sha1_extend. destruct (Nat.ltb i 16); [reflexivity|]. oe. Qed.
Lemma oe_sha1_macro : forall values hv inv, oerase (t_sha1_macro values hv inv) = sha1_macro values hv inv.
Proof. intros values hv [[r vi] [[[[i0 i1] i2] i3] i4]]. unfold t_sha1_macro, sha1_macro. oe. Qed.
Lemma oe_sha1_loop_step : forall values hv vi, oerase (t_sha1_loop_step values hv vi) = sha1_loop_step values hv vi.
Proof.
  intros. unfold t_sha1_loop_step, sha1_loop_step.
  do 3 (eapply oe_bind; [apply oe_get | intro]). eapply oe_pure; [apply oe_round|]. oe.
Qed.
Lemma oe_sha1_block : forall u p base buf off ch values,
  oerase (t_sha1_block u p base buf off ch values) = sha1_block u buf off ch values.
Proof.
  intros. unfold t_sha1_block, sha1_block. apply oe_emit. destruct u.
  - apply oe_bind; [apply oe_copy_16x|]. intro v. apply oe_bind; [apply oe_fold; intros; apply oe_sha1_extend|]. intro v'.
    apply oe_bind; [apply oe_fold; intros; apply oe_sha1_macro|]. intro hv.
    apply oe_bind; [apply oe_add_hash_values|]. intro. apply oe_ret.
  - apply oe_bind; [apply oe_copy_loop|]. intros [o v]. apply oe_bind; [apply oe_loop; intros; apply oe_sha1_extend|]. intro v'.
    apply oe_bind; [apply oe_loop; intros; apply oe_sha1_loop_step|]. intro hv.
    apply oe_bind; [apply oe_add_hash_values|]. intro. apply oe_ret.
Qed.
Lemma oe_sha2_extend : forall K values i, oerase (t_sha2_extend K values i) = sha2_extend K values i.
Proof. intros. unfold t_sha2_extend, sha2_extend. destruct (Nat.ltb i 16); [reflexivity|]. oe. Qed.
Lemma oe_sha2_t : forall K values vi h0 h1 h2 h4 h5 h6 h7,
  oerase (t_sha2_t K values vi h0 h1 h2 h4 h5 h6 h7) = sha2_t K values vi h0 h1 h2 h4 h5 h6 h7.
Proof. intros. unfold t_sha2_t, sha2_t. oe. Qed.
Lemma oe_sha2_macro : forall K values hv inv, oerase (t_sha2_macro K values hv inv) = sha2_macro K values hv inv.
Proof.
  intros K values hv [vi [[[[[[[i0 i1] i2] i3] i4] i5] i6] i7]]. unfold t_sha2_macro, sha2_macro.
  do 7 (eapply oe_bind; [apply oe_get | intro]). eapply oe_bind; [apply oe_sha2_t | intro]. oe.
Qed.
Lemma oe_sha2_loop_step : forall K values hv vi, oerase (t_sha2_loop_step K values hv vi) = sha2_loop_step K values hv vi.
Proof.
  intros. unfold t_sha2_loop_step, sha2_loop_step.
  do 7 (eapply oe_bind; [apply oe_get | intro]). eapply oe_bind; [apply oe_sha2_t | intro]. oe.
Qed.
Lemma oe_sha2_block : forall K u p base buf off ch values,
  oerase (t_sha2_block K u p base buf off ch values) = sha2_block K u buf off ch values.
Proof.
  intros. unfold t_sha2_block, sha2_block. apply oe_emit. destruct u.
  - apply oe_bind; [apply oe_copy_16x|]. intro v. apply oe_bind; [apply oe_fold; intros; apply oe_sha2_extend|]. intro v'.
    apply oe_bind; [apply oe_fold; intros; apply oe_sha2_macro|]. intro hv.
    apply oe_bind; [apply oe_add_hash_values|]. intro. apply oe_ret.
  - apply oe_bind; [apply oe_copy_loop|]. intros [o v]. apply oe_bind; [apply oe_loop; intros; apply oe_sha2_extend|]. intro v'.
    apply oe_bind; [apply oe_loop; intros; apply oe_sha2_loop_step|]. intro hv.
    apply oe_bind; [apply oe_add_hash_values|]. intro. apply oe_ret.
Qed.
Lemma oe_block : forall a u p base buf off ch values,
  oerase (t_block a u p base buf off ch values) = a_block (alg_of a) u buf off ch values.
Proof.
  intros. destruct a; cbn [t_block alg_of a_block md5_alg sha1_alg sha224_alg sha256_alg sha512_alg];
    [apply oe_md5_block | apply oe_sha1_block | apply oe_sha2_block | apply oe_sha2_block | apply oe_sha2_block].
Qed.
Lemma oe_transform_loop : forall E a p base fuel buf off size ch hv values,
  oerase (t_transform_loop E a p base fuel buf off size ch hv values) = transform_loop E (alg_of a) fuel buf off size ch hv values.
Proof.
  intros E a p base fuel. induction fuel as [|f IH]; intros; cbn [t_transform_loop transform_loop]; apply oe_cond;
    destruct (size <? a_bs (alg_of a)); cbn [negb]; try reflexivity.
  apply oe_bind; [apply oe_block|]. intros [[[o c] h] v]. apply oe_emit. apply IH.
Qed.

(* ------------------------------------------------------------------ memory *)

Definition er {A} (m : T A) (m' : M A) : Prop := forall s, erase m s = m' s.

Lemma er_bind : forall {A B} (m : T A) (m' : M A) (k : A -> T B) (k' : A -> M B),
  er m m' -> (forall a, er (k a) (k' a)) -> er (tbind m k) (bind m' k').
Proof.
  intros A B m m' k k' Hm Hk s. unfold erase, tbind, bind. rewrite <- Hm. unfold erase.
  destruct (m s) as [t a s1|]; [|reflexivity]. rewrite <- Hk. unfold erase. destruct (k a s1); reflexivity.
Qed.
Lemma er_emit : forall {B} e (k : unit -> T B) m, er (k tt) m -> er (tbind (emit e) k) m.
Proof. intros B e k m H s. unfold erase, tbind, emit. rewrite <- H. unfold erase. destruct (k tt s); reflexivity. Qed.
Lemma er_cond : forall {B} b (k : bool -> T B) m, er (k b) m -> er (tbind (cond b) k) m.
Proof. intros B b k m H s. unfold erase, tbind, cond, emit, tret. cbn. rewrite <- H. unfold erase. destruct (k b s); reflexivity. Qed.
Lemma er_bytes : forall {B} at_ n off (k : unit -> T B) m, er (k tt) m -> er (tbind (t_bytes at_ n off) k) m.
Proof.
  intros B at_ n off k m H.
  assert (X : forall n off s, exists t, t_bytes at_ n off s = TDone t tt s).
  { clear. induction n as [|n IH]; intros off s; cbn [t_bytes]; [exists []; reflexivity|].
    destruct (IH (off + 1) s) as [t Ht]. unfold tbind, emit. rewrite Ht. eexists; reflexivity. }
  intro s. destruct (X n off s) as [t Ht]. unfold erase, tbind. rewrite Ht. rewrite <- H. unfold erase.
  destruct (k tt s); reflexivity.
Qed.
Lemma er_local : forall {A B} (m : OT A) (o : option A) (k : A -> T B) (k' : A -> M B),
  oerase m = o -> (forall a, er (k a) (k' a)) -> er (tbind (local m) k) (bind (lift o) k').
Proof.
  intros A B m o k k' Hm Hk. subst o. apply er_bind; [|exact Hk].
  intro s. unfold erase, local. destruct m as [[t a]|]; reflexivity.
Qed.
Lemma er_ret : forall {A} (a : A), er (tret a) (ret a).
Proof. intros A a s. reflexivity. Qed.
Lemma er_quiet : forall {A} (m : M A), er (quiet m) m.
Proof. intros A m s. unfold erase, quiet. destruct (m s); reflexivity. Qed.
Lemma er_error_set : forall e k, er (t_error_set e k) (error_set e k).
Proof. intros. unfold t_error_set. apply er_emit, er_quiet. Qed.
Lemma er_fail : forall e k, er (t_fail e k) (fail e k).
Proof. intros. unfold t_fail, fail. apply er_bind; [apply er_error_set | intro; apply er_ret]. Qed.
Lemma er_mset : forall p v n, er (t_mset p v n) (mset p v n).
Proof. intros. apply er_emit, er_quiet. Qed.
Lemma er_mcopy : forall d s n, er (t_mcopy d s n) (mcopy d s n).
Proof. intros. apply er_emit, er_quiet. Qed.
Lemma er_mfree : forall p, er (t_mfree p) (mfree p).
Proof. intros. apply er_emit, er_quiet. Qed.
Lemma er_read_byte : forall p, er (t_read_byte p) (read_byte p).
Proof. intros. apply er_emit, er_quiet. Qed.
Lemma er_write_byte : forall p b, er (t_write_byte p b) (write_byte p b).
Proof. intros. apply er_emit, er_quiet. Qed.
Lemma er_mfold : forall {A B} (f : A -> B -> T A) (g : A -> B -> M A) l a,
  (forall a b, er (f a b) (g a b)) -> er (t_mfold f l a) (mfold g l a).
Proof.
  intros A B f g l a H. revert a. induction l as [|b l IH]; intro a; [apply er_ret|].
  cbn [t_mfold mfold]. apply er_bind; [apply H | exact IH].
Qed.
Lemma er_mloop : forall {A B} (f : A -> B -> T A) (g : A -> B -> M A) l a,
  (forall a b, er (f a b) (g a b)) -> er (t_mloop f l a) (mfold g l a).
Proof.
  intros A B f g l a H. revert a. induction l as [|b l IH]; intro a; [apply er_emit, er_ret|].
  cbn [t_mloop mfold]. apply er_emit. apply er_bind; [apply H | exact IH].
Qed.

Ltac er1 := first
  [ apply er_ret | apply er_quiet | apply er_error_set | apply er_fail | apply er_mset | apply er_mcopy | apply er_mfree
  | apply er_read_byte | apply er_write_byte
  | apply er_emit | apply er_cond | apply er_bytes
  | match goal with |- er (match ?x with _ => _ end) _ => destruct x end
  | match goal with |- er (let '(_, _) := ?x in _) _ => destruct x end
  | eapply er_bind; [solve [apply er_quiet | apply er_error_set | apply er_fail | apply er_mset | apply er_mcopy | apply er_mfree
                           | apply er_read_byte | apply er_write_byte ] | intro] ].
Ltac er := unfold rd, wr, not_one; repeat er1.

Section WithEnv.
  Variable E : env.
  Lemma er_transform : forall a context base buffer size e,
    er (t_transform E a context base buffer size e) (transform E a context buffer size e).
  Proof.
    intros. unfold t_transform, transform. cbv zeta. apply er_cond. destruct context as [p|]; [|er].
    apply er_cond. destruct buffer as [buf|]; [|er]. apply er_cond. destruct (ssize_max E <? size); [er|].
    eapply er_bind; [apply er_quiet | intro c]. eapply er_bind; [apply er_quiet | intro call].
    eapply er_local; [apply oe_transform_loop|]. intros [[[o ch] hv] v]. er.
  Qed.
  Lemma er_initialize : forall a context e, er (t_initialize E a context e) (context_initialize E a context e).
  Proof.
    intros. unfold t_initialize, context_initialize. cbv zeta. apply er_cond. destruct context as [[q|]|]; er.
  Qed.
  Lemma er_free : forall a context e, er (t_free a context e) (context_free a context e).
  Proof. intros. unfold t_free, context_free. apply er_cond. destruct context as [[q|]|]; er. Qed.
  Lemma er_update_tail : forall a p bp buf off size e,
    er (t_update_tail E a p bp buf off size e) (update_tail E a p buf off size e).
  Proof.
    intros. unfold t_update_tail, update_tail. cbv zeta. apply er_cond. apply er_bind.
    - destruct (0 <? size); [|er]. eapply er_bind; [apply er_transform|]. intro pc. er.
    - intros [[o n]|]; er.
  Qed.
  Lemma er_update : forall a context buffer size e,
    er (t_update E a context buffer size e) (context_update E a context buffer size e).
  Proof.
    intros. unfold t_update, context_update. cbv zeta. apply er_cond. destruct context as [p|]; [|er].
    apply er_cond. destruct buffer as [bp|]; [|er]. apply er_cond. destruct (ssize_max E <? size); [er|].
    apply er_cond. destruct (size =? 0); [er|]. do 2 (eapply er_bind; [apply er_quiet | intro]).
    apply er_emit. apply er_cond. destruct (0 <? c_boff a0); [|apply er_update_tail].
    apply er_emit. apply er_cond. destruct (a_bs (alg_of a) <=? c_boff a0); [er|].
    apply er_emit. apply er_cond. apply er_emit. apply er_emit.
    do 2 (eapply er_bind; [apply er_quiet | intro]). do 2 apply er_emit.
    eapply er_bind; [apply er_quiet | intro]. apply er_emit. apply er_cond.
    match goal with |- er (if ?b then _ else _) _ => destruct b end; [er|].
    eapply er_bind; [apply er_transform | intro pc]. apply er_cond. destruct (pc =? -1)%Z; [er|].
    do 3 apply er_emit. do 2 (eapply er_bind; [apply er_quiet | intro]). apply er_update_tail.
  Qed.
  Lemma oe_final_checks : forall A l n, oerase (t_final_checks E A l n) = Some (final_checks E A l n).
  Proof.
    intros A l n. induction l as [|[|] l IH]; cbn [t_final_checks final_checks]; [reflexivity| |]; apply oe_cond;
      match goal with |- context[if ?b then _ else _] => destruct b end; try reflexivity; exact IH.
  Qed.
  Lemma er_store_digest : forall a p hash, er (t_store_digest E a p hash) (store_digest E a p hash).
  Proof.
    intros. unfold t_store_digest, store_digest. cbv zeta. destruct (unrolled E).
    - apply er_mfold. intros u st. er.
    - apply er_bind; [|intro; er]. apply er_mloop. intros h i. er.
  Qed.
  Lemma er_finalize : forall a context hash n e,
    er (t_finalize E a context hash n e) (context_finalize E a context hash n e).
  Proof.
    intros. unfold t_finalize, context_finalize. cbv zeta. apply er_cond. destruct context as [p|]; [|er].
    apply er_cond. destruct hash as [hp|]; [|er].
    intro s. unfold erase. unfold tbind at 1. pose proof (oe_final_checks (alg_of a) (a_checks (alg_of a)) n) as F.
    unfold local. destruct (t_final_checks E (alg_of a) (a_checks (alg_of a)) n) as [[t r]|]; [|discriminate F].
    cbn in F. injection F as ->.
    match goal with |- context[match ?m s with TDone t' b s'' => TDone (t ++ t') b s'' | TUndef => TUndef end] =>
      enough (X : er m (match final_checks E (alg_of a) (a_checks (alg_of a)) n with
              | Some k => fail e k
              | None => fun s => context_finalize E a (Some p) (Some hp) n e s end)) end.
    { specialize (X s). unfold erase in X. revert X.
      match goal with |- context[match ?m with TDone t' b s'' => TDone (t ++ t') b s'' | TUndef => TUndef end] => destruct m end;
      unfold context_finalize; cbv zeta; destruct (final_checks E (alg_of a) (a_checks (alg_of a)) n); intros ->; reflexivity. }
    unfold context_finalize. cbv zeta. destruct (final_checks E (alg_of a) (a_checks (alg_of a)) n); [er|].
    match goal with |- er _ (fun s => ?m s) => change (er ?x (fun s => m s)) with (er x m) end.
    eapply er_bind; [apply er_quiet | intro c]. apply er_emit. apply er_cond. do 2 apply er_emit.
    eapply er_bind; [apply er_quiet | intro]. do 2 apply er_emit. eapply er_bind; [apply er_quiet | intro].
    do 2 apply er_emit. apply er_bytes. do 2 (eapply er_bind; [apply er_quiet | intro]).
    eapply er_bind; [apply er_transform | intro pc]. apply er_cond. destruct (pc =? -1)%Z; [er|].
    eapply er_bind; [apply er_store_digest | intro]. er.
  Qed.
  Lemma er_calculate_on_error : forall a context, er (t_calculate_on_error a context) (calculate_on_error a context).
  Proof.
    intros. unfold t_calculate_on_error, calculate_on_error. apply er_cond. destruct context; [|er].
    eapply er_bind; [apply er_free | intro; er].
  Qed.
  Ltac err := eapply er_bind; [apply er_error_set | intro; first [apply er_ret | apply er_calculate_on_error]].
  Ltac step L := eapply er_bind; [apply L|]; intro; unfold not_one; apply er_cond;
    match goal with |- er (if ?b then _ else _) _ => destruct b end; [err|].
  Lemma er_calculate : forall a buffer size hash n e,
    er (t_calculate E a buffer size hash n e) (calculate E a buffer size hash n e).
  Proof.
    intros. unfold t_calculate, calculate. cbv zeta.
    step er_initialize. step er_update. step er_finalize. step er_free. er.
  Qed.
  Lemma er_clear_and_free : forall a p, er (t_clear_and_free a p) (clear_and_free a p).
  Proof. intros. unfold t_clear_and_free, clear_and_free. apply er_cond. destruct p; er. Qed.
  Lemma er_hmac_on_error : forall a c o i k, er (t_hmac_on_error a c o i k) (hmac_on_error a c o i k).
  Proof.
    intros. unfold t_hmac_on_error, hmac_on_error. apply er_bind.
    - apply er_cond. destruct c; [|er]. eapply er_bind; [apply er_free | intro; er].
    - intro. do 3 (eapply er_bind; [apply er_clear_and_free | intro]). er.
  Qed.
  Lemma er_allocate_bytes : forall n, er (t_allocate_bytes E n) (allocate_bytes E n).
  Proof. intros. apply er_emit, er_quiet. Qed.
  Lemma er_key_data : forall a kh kd key n e, er (t_hmac_key_data E a kh kd key n e) (hmac_key_data E a kh kd key n e).
  Proof.
    intros. unfold t_hmac_key_data, hmac_key_data. cbv zeta. apply er_cond. destruct (n <=? hmac_block_size a); [er|].
    step er_initialize. step er_update. step er_finalize. step er_free.
    apply er_bind; [er|]. intro. er.
  Qed.
  Lemma er_xor : forall i o k n, er (t_hmac_xor i o k n) (hmac_xor i o k n).
  Proof. intros. apply er_mloop. intros u j. unfold t_hmac_xor_step, hmac_xor_step. er. Qed.
  Lemma er_pass : forall a pad buffer size h n e, er (t_hmac_pass E a pad buffer size h n e) (hmac_pass E a pad buffer size h n e).
  Proof.
    intros. unfold t_hmac_pass, hmac_pass. cbv zeta.
    step er_initialize. step er_update. step er_update. step er_finalize. step er_free. er.
  Qed.
  Lemma er_calculate_hmac : forall a key kn buffer size h n e,
    er (t_calculate_hmac E a key kn buffer size h n e) (calculate_hmac E a key kn buffer size h n e).
  Proof.
    intros. unfold t_calculate_hmac, calculate_hmac. eapply er_bind; [apply er_quiet | intro kh].
    apply er_bind; [|intro; er].
    unfold t_calculate_hmac_body, calculate_hmac_body. cbv zeta. apply er_cond. destruct key as [kp|]; [|er].
    apply er_cond. destruct (ssize_max E <? kn); [er|]. apply er_cond. destruct (n <? a_hs (alg_of a)); [er|].
    eapply er_bind; [apply er_allocate_bytes | intro kd]. apply er_cond.
    destruct kd as [kd|]; [|eapply er_bind; [apply er_error_set | intro; apply er_hmac_on_error]].
    eapply er_bind; [apply er_key_data | intros [c|]]; [apply er_hmac_on_error|].
    eapply er_bind; [apply er_allocate_bytes | intro ip]. apply er_cond.
    destruct ip as [ip|]; [|eapply er_bind; [apply er_error_set | intro; apply er_hmac_on_error]].
    eapply er_bind; [apply er_mset | intro].
    eapply er_bind; [apply er_allocate_bytes | intro op]. apply er_cond.
    destruct op as [op|]; [|eapply er_bind; [apply er_error_set | intro; apply er_hmac_on_error]].
    eapply er_bind; [apply er_mset | intro]. eapply er_bind; [apply er_xor | intro].
    eapply er_bind; [apply er_pass | intros [c|]]; [apply er_hmac_on_error|].
    eapply er_bind; [apply er_pass | intros [c|]]; [apply er_hmac_on_error|]. er.
  Qed.
End WithEnv.
