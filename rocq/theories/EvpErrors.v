(* What the builds on a message digest provider report and leave in memory. *)
From Coq Require Import Arith NArith ZArith List Bool Lia.
From Verif Require Import Words Spec Machine MachineFacts Context ContextFacts Hash HashFacts Vocab ErrorVocab ErrorFacts SumErrors Evp EvpVocab EvpErrorVocab.
Import ListNotations.
Open Scope N_scope.

(* ------------------------------------------------------------- events *)

Lemma told_app : forall l l' b es es', told l true es -> told l' b es' -> told (l ++ l') b (es ++ es').
Proof.
  intros l. induction l as [|x l IH]; intros l' b es es' H H'.
  - inversion H; subst. exact H'.
  - inversion H; subst; cbn [app].
    + apply told_go; [assumption|]. now apply IH.
    + rewrite <- app_assoc. apply told_note; [assumption|]. now apply IH.
    + apply told_skip; [assumption|]. now apply IH.
Qed.
Lemma told_app_stop : forall l l' es, told l false es -> told (l ++ l') false es.
Proof.
  intros l. induction l as [|x l IH]; intros l' es H; [inversion H|]. inversion H; subst; cbn [app].
  - now apply told_stop.
  - apply told_go; [assumption|]. now apply IH.
  - apply told_note; [assumption|]. now apply IH.
  - apply told_skip; [assumption|]. now apply IH.
Qed.
Lemma told_then_true : forall k l es, told l true es -> told (and_then k l) true es.
Proof.
  intros k l. induction l as [|x l IH]; intros es H; [exact H|]. inversion H; subst; cbn [and_then map].
  - apply told_go; [assumption|]. now apply IH.
  - apply told_note; [assumption|]. now apply IH.
  - apply told_skip; [assumption|]. now apply IH.
Qed.
Lemma told_then_false : forall k l es, told l false es -> told (and_then k l) false (es ++ [k]).
Proof.
  intros k l. induction l as [|x l IH]; intros es H; [inversion H|]. inversion H; subst; cbn [and_then map].
  - now apply told_stop.
  - apply told_go; [assumption|]. now apply IH.
  - rewrite <- app_assoc. apply told_note; [assumption|]. now apply IH.
  - apply told_skip; [assumption|]. now apply IH.
Qed.

Lemma told_eq : forall l l' y es, l = l' -> told l y es -> told l' y es.
Proof. now intros l l' y es ->. Qed.
Lemma told_last : forall l (R R' : Prop) ks y es, told (l ++ [Stop R ks]) y es -> (forall es, told l true es -> R <-> R') -> told (l ++ [Stop R' ks]) y es.
Proof.
  intros l R R' ks. induction l as [|x l IH]; intros y es H Q.
  - specialize (Q [] told_all). cbn [app] in *. inversion H; subst; [apply told_stop; tauto|]. apply told_go; [tauto|assumption].
  - cbn [app] in *. inversion H; subst.
    + now apply told_stop.
    + apply told_go; [assumption|]. apply IH; [assumption|]. intros es' X. apply (Q es'). now apply told_go.
    + apply told_note; [assumption|]. apply IH; [assumption|]. intros es' X. eapply Q. apply told_note; eassumption.
    + apply told_skip; [assumption|]. apply IH; [assumption|]. intros es' X. apply (Q es'). now apply told_skip.
Qed.
Lemma told_in : forall l es (P : Prop) ks, told l true es -> In (Stop P ks) l -> ~ P.
Proof.
  intros l. induction l as [|x l IH]; intros es P ks H I; [destruct I|]. destruct I as [I|I]; [subst x; inversion H; subst; assumption|].
  inversion H; subst; eapply IH; eassumption.
Qed.

Lemma said_one : forall e k s, said e false [k] (-1)%Z s (add_err e k s).
Proof. intros [] k s; split; try reflexivity; cbn; now rewrite ?app_nil_r. Qed.
Lemma said_nil : forall e s s', errs s' = errs s -> said e true [] 1%Z s s'.
Proof. intros e s s' H. split; [reflexivity|]. rewrite H. destruct e; now rewrite app_nil_r. Qed.
Lemma said_before : forall e b es r s s1 s', errs s1 = errs s -> said e b es r s1 s' -> said e b es r s s'.
Proof. intros e b es r s s1 s' H (R & X). split; [exact R|]. congruence. Qed.
Lemma said_after : forall e b es r s s1 s', errs s' = errs s1 -> said e b es r s s1 -> said e b es r s s'.
Proof. intros e b es r s s1 s' H (R & X). split; [exact R|]. congruence. Qed.
Lemma said_trans : forall e b es es' r r' s s1 s2, said e true es r s s1 -> said e b es' r' s1 s2 -> said e b (es ++ es') r' s s2.
Proof. intros e b es es' r r' s s1 s2 (_ & X) (R & Y). split; [exact R|]. rewrite Y, X. destruct e; now rewrite <- app_assoc. Qed.
Lemma said_more : forall e es r k s s1, said e false es r s s1 -> said e false (es ++ [k]) (-1)%Z s (add_err e k s1).
Proof. intros [] es r k s s1 (R & X); (split; [reflexivity|]); cbn; rewrite X; now rewrite ?app_assoc, ?app_nil_r. Qed.

(* ------------------------------------------------------------- quiet operations *)

Definition quiet {A} (m : M A) : Prop := forall s x s', m s = Done x s' -> errs s' = errs s /\ tries s' = tries s.
Lemma q_ret : forall A (x : A), quiet (ret x).
Proof. intros A x s y s' [= <- <-]. now split. Qed.
Lemma q_bind : forall A B (m : M A) (f : A -> M B), quiet m -> (forall x, quiet (f x)) -> quiet (bind m f).
Proof. intros A B m f Hm Hf s x s' H. apply bind_inv in H as (y & s1 & H1 & H). destruct (Hm _ _ _ H1), (Hf _ _ _ _ H). split; congruence. Qed.
Lemma q_put : forall p o s s', put_obj p o s = Some s' -> errs s' = errs s /\ tries s' = tries s.
Proof. intros p o s s' H. unfold put_obj in H. destruct (nth_error (mem s) p) as [[[] k c]|]; try discriminate. injection H as <-. now split. Qed.
Lemma q_view : forall p, quiet (view p).
Proof. intros p s x s' H. unfold view in H. destruct (get_obj s (fst p)) as [[l| |]|]; try discriminate. destruct (snd p <=? N.of_nat (length l)); [|discriminate]. injection H as <- <-. now split. Qed.
Lemma q_lift : forall A (o : option A), quiet (lift o).
Proof. intros A [x|]; [apply q_ret|]. intros s x s' H. discriminate. Qed.
Lemma q_write : forall p d, quiet (write p d).
Proof.
  intros p d s x s' H. unfold write in H. destruct (get_obj s (fst p)) as [[l| |]|]; try discriminate. destruct (splice l (snd p) d) as [l'|]; [|discriminate].
  destruct (put_obj (fst p) (OBytes l') s) eqn:Q; [|discriminate]. injection H as <- <-. exact (q_put _ _ _ _ Q).
Qed.
Lemma q_mset : forall p x n, quiet (mset p x n).
Proof. intros. apply q_write. Qed.
Lemma q_mcopy : forall p q n, quiet (mcopy p q n).
Proof.
  intros p q n. unfold mcopy. destruct (disjoint_ranges p q n); [|intros s x s' H; discriminate].
  apply q_bind; [apply q_view|]. intros x. apply q_bind; [apply q_lift|]. intros y. apply q_write.
Qed.
Lemma q_free : forall p, quiet (mfree p).
Proof. intros p s x s' H. exact (free_quiet _ _ _ _ H). Qed.
Lemma q_clear : forall a p, quiet (clear_and_free a p).
Proof. intros a [p|]; cbn [clear_and_free]; [|apply q_ret]. apply q_bind; [apply q_mset|]. intros _. apply q_free. Qed.
Lemma q_mfold : forall A B (f : A -> B -> M A) l x, (forall x y, quiet (f x y)) -> quiet (mfold f l x).
Proof. intros A B f l. induction l as [|y l IH]; intros x H; cbn [mfold]; [apply q_ret|]. apply q_bind; [apply H|]. intros z. now apply IH. Qed.
Lemma q_read : forall p, quiet (read_byte p).
Proof. intros p. apply q_bind; [apply q_view|]. intros. apply q_lift. Qed.
Lemma q_xor : forall ip op kd n, quiet (hmac_xor ip op kd n).
Proof.
  intros ip op kd n. unfold hmac_xor. apply q_mfold. intros u i. destruct u. unfold hmac_xor_step.
  repeat (apply q_bind; [first [apply q_read|apply q_write]|intros]). apply q_write.
Qed.
Lemma q_ask : forall A (f : state -> A), quiet (ask f).
Proof. intros A f s x s' [= <- <-]. now split. Qed.
Lemma q_context : forall v p, quiet (provider_context v p).
Proof. intros [l| |] p; try apply q_ret. intros s x s' H. cbn in H. destruct (get_obj s p) as [[| |[q|]]|]; try discriminate. injection H as <- <-. now split. Qed.
Lemma q_load : forall q, quiet (load_provider q).
Proof. intros q s x s' H. unfold load_provider in H. destruct (get_obj s q) as [[l| |]|]; try discriminate. injection H as <- <-. now split. Qed.
Lemma q_store : forall q c, quiet (store_provider q c).
Proof.
  intros q c s x s' H. unfold store_provider in H. destruct (get_obj s q) as [[l| |]|]; try discriminate.
  destruct (put_obj q (OBytes c) s) eqn:Q; [|discriminate]. injection H as <- <-. exact (q_put _ _ _ _ Q).
Qed.
Lemma q_set : forall p q, quiet (set_provider_context p q).
Proof.
  intros p q s x s' H. unfold set_provider_context in H. destruct (get_obj s p) as [[| |r]|]; try discriminate.
  destruct (put_obj p (OPtr q) s) eqn:Q; [|discriminate]. injection H as <- <-. exact (q_put _ _ _ _ Q).
Qed.
Lemma q_pop : forall p, quiet (pop_local p).
Proof. intros p s x s' H. unfold pop_local in H. destruct (nth_error (mem s) p) as [[[] [] o]|]; try discriminate. injection H as <- <-. now split. Qed.

(* go on past a quiet operation, which leaves its two equations *)
Ltac quietly H L := let y := fresh "y" in let s1 := fresh "s1" in let H1 := fresh "H1" in let Q1 := fresh "Q" in let Q2 := fresh "T" in
  apply bind_inv in H as (y & s1 & H1 & H); destruct (L _ _ _ H1) as (Q1 & Q2).

(* ------------------------------------------------------------- the functions of a context *)

Lemma init_events : forall E P v a e s r c s', evp_initialize E P v a (Some None) e s = Done (r, c) s' ->
  exists s1 b es, (forall q, (q < length (mem s))%nat -> nth_error (mem s1) q = nth_error (mem s) q) /\
  told (open_events E v (fst (p_init P a s1) <> 1%Z) (tries s)) b es /\ said e b es r s s' /\ (b = true <-> c <> None) /\
  (tries s' <= tries s + per_context v)%nat /\ (b = true -> tries s' = tries s + per_context v)%nat.
Proof.
  intros E P v a e s r c s' H.
  assert (Main : v <> Outside -> (x <- allocate (OBytes []) E ;;
     match x with
     | None => r <- fail e E_MEMORY_INSUFFICIENT ;; ret (r, None)
     | Some p => r <- provider_init P a p ;; if (r =? 1)%Z then ret (1%Z, Some p) else r <- fail e E_RUNTIME_INITIALIZE_FAILED ;; mfree p ;;; ret (r, None)
     end) s = Done (r, c) s' -> per_context v = 1%nat ->
     exists s1 b es, (forall q, (q < length (mem s))%nat -> nth_error (mem s1) q = nth_error (mem s) q) /\
     told (open_events E v (fst (p_init P a s1) <> 1%Z) (tries s)) b es /\ said e b es r s s' /\ (b = true <-> c <> None) /\
     (tries s' <= tries s + per_context v)%nat /\ (b = true -> tries s' = tries s + per_context v)%nat).
  { clear H. intros V H PC. rewrite PC. unfold open_events. apply bind_inv in H as (x & s1 & H1 & H). destruct (alloc_ok E (tries s)) eqn:A.
    - rewrite allocate_ok in H1 by exact A. injection H1 as <- <-. unfold provider_init in H. apply bind_inv in H as (z & sz & H1 & H). apply bind_inv in H1 as (w & sw & Hw & H1). injection Hw as <- <-.
      set (s1 := tick (new_cell Heap (OBytes []) s)) in *. assert (E1 : errs s1 = errs s) by reflexivity. assert (T1 : tries s1 = S (tries s)) by reflexivity.
      assert (M1 : forall q, (q < length (mem s))%nat -> nth_error (mem s1) q = nth_error (mem s) q) by (intros q L; cbn; now rewrite nth_error_app1).
      clearbody s1. apply bind_inv in H1 as (u & s2 & H2 & H1). destruct (q_store _ _ _ _ _ H2) as (Q & T). injection H1 as <- <-. exists s1. destruct (fst (p_init P a s1) =? 1)%Z eqn:I.
      + injection H as <- <- <-. apply Z.eqb_eq in I. exists true, []. split; [exact M1|].
        split; [repeat (apply told_go; [intuition congruence|]); apply told_all|]. split; [apply said_nil; congruence|]. split; [split; [discriminate|reflexivity]|]. lia.
      + failed H. apply bind_inv in H as (u' & s3 & H3 & H). destruct (q_free _ _ _ _ H3) as (Q0 & T0). injection H as <- <- <-. apply Z.eqb_neq in I. exists false, [E_RUNTIME_INITIALIZE_FAILED].
        split; [exact M1|].
        split; [do 2 (apply told_go; [intuition congruence|]); now apply told_stop|].
        split; [eapply said_after; [exact Q0|]; eapply said_before; [|apply said_one]; congruence|].
        cbn in T0. split; [split; [discriminate|congruence]|]. split; [lia|discriminate].
    - rewrite allocate_no in H1 by exact A. injection H1 as <- <-. failed H. injection H as <- <- <-. exists s, false, [E_MEMORY_INSUFFICIENT].
      split; [reflexivity|]. split; [now apply told_stop|]. split; [eapply said_before; [|apply said_one]; reflexivity|]. split; [split; [discriminate|congruence]|]. cbn. split; [lia|discriminate]. }
  destruct v as [l| |]; [apply Main; [discriminate|exact H|reflexivity]|apply Main; [discriminate|exact H|reflexivity]|]. clear Main.
  cbn [evp_initialize] in H. unfold open_events. cbn [per_context]. apply bind_inv in H as (x & s1 & H1 & H). destruct (alloc_ok E (tries s)) eqn:A.
  2:{ rewrite allocate_no in H1 by exact A. injection H1 as <- <-. failed H. injection H as <- <- <-. exists s, false, [E_MEMORY_INSUFFICIENT].
      split; [reflexivity|]. split; [now apply told_stop|]. split; [eapply said_before; [|apply said_one]; reflexivity|]. split; [split; [discriminate|congruence]|]. cbn. split; [lia|discriminate]. }
  rewrite allocate_ok in H1 by exact A. injection H1 as <- <-. apply bind_inv in H as (x & s1 & H1 & H).
  destruct (alloc_ok E (S (tries s))) eqn:A2.
  2:{ rewrite allocate_no in H1 by exact A2. injection H1 as <- <-. failed H. quietly H (q_free (length (mem s))). injection H as <- <- <-.
      exists s, false, [E_RUNTIME_INITIALIZE_FAILED]. split; [reflexivity|]. split; [apply told_go; [congruence|]; now apply told_stop|].
      split; [eapply said_after; [exact Q|]; eapply said_before; [|apply said_one]; reflexivity|]. cbn in T. split; [split; [discriminate|congruence]|]. split; [lia|discriminate]. }
  rewrite allocate_ok in H1 by exact A2. injection H1 as <- <-. cbn [mem tries errs] in H. set (p := length (mem s)) in *. set (q := length _) in H.
  apply bind_inv in H as (u1 & s1 & H1 & H). destruct (q_set _ _ _ _ _ H1) as (Q & T). cbn [errs tries tick new_cell] in Q, T.
  unfold provider_init in H. apply bind_inv in H as (z & sz & H2 & H). apply bind_inv in H2 as (w & sw & Hw & H2). injection Hw as <- <-.
  apply bind_inv in H2 as (u2 & s2 & H3 & H2). destruct (q_store _ _ _ _ _ H3) as (Q0 & T0). injection H2 as <- <-. exists s1.
  assert (Sm : forall i, (i < p)%nat -> nth_error (mem s1) i = nth_error (mem s) i).
  { intros i L. unfold set_provider_context in H1. destruct (get_obj _ p) as [[| |o]|]; try discriminate. destruct (put_obj p _ _) eqn:Q1; [|discriminate].
    injection H1 as <- <-. unfold put_obj in Q1. destruct (nth_error (mem (tick _)) p) as [[[] k1 c1]|]; try discriminate. injection Q1 as <-. cbn [mem set_mem tick new_cell].
    rewrite replace_other by lia. rewrite nth_error_app1 by (rewrite app_length; cbn; unfold p in L; lia). now rewrite nth_error_app1. }
  destruct (fst (p_init P a s1) =? 1)%Z eqn:I.
  - injection H as <- <- <-. apply Z.eqb_eq in I. exists true, []. split; [exact Sm|].
    split; [repeat (apply told_go; [intuition congruence|]); apply told_all|]. split; [apply said_nil; congruence|]. split; [split; [discriminate|reflexivity]|]. lia.
  - failed H. apply bind_inv in H as (u3 & s3 & F3 & H). destruct (q_free _ _ _ _ F3) as (Q1 & T1). apply bind_inv in H as (u4 & s4 & F4 & H).
    destruct (q_set _ _ _ _ _ F4) as (Q2 & T2). apply bind_inv in H as (u5 & s5 & F5 & H). destruct (q_free _ _ _ _ F5) as (Q3 & T3). injection H as <- <- <-. apply Z.eqb_neq in I. exists false, [E_RUNTIME_INITIALIZE_FAILED].
    split; [exact Sm|]. split; [do 2 (apply told_go; [intuition congruence|]); now apply told_stop|].
    split; [eapply said_after; [|eapply said_before; [|apply said_one]]; [etransitivity; [exact Q3|etransitivity; [exact Q2|exact Q1]]|congruence]|].
    cbn in *. split; [split; [discriminate|congruence]|]. split; [lia|discriminate].
Qed.

Lemma context_bytes : forall v p s q s1 c s2, provider_context v p s = Done q s1 -> load_provider q s1 = Done c s2 -> s1 = s /\ s2 = s /\ provider_bytes v s p c.
Proof.
  intros v p s q s1 c s2 H1 H2. unfold load_provider in H2. destruct (get_obj s1 q) as [[l| |]|] eqn:G; try discriminate. injection H2 as <- <-.
  destruct v; cbn in H1.
  - injection H1 as <- <-. now repeat split.
  - injection H1 as <- <-. now repeat split.
  - destruct (get_obj s p) as [[| |[q'|]]|] eqn:G'; try discriminate. injection H1 as <- <-. repeat split. exists q'. now split.
Qed.
Lemma bytes_unique : forall v s p c c', provider_bytes v s p c -> provider_bytes v s p c' -> c = c'.
Proof. intros [l| |] s p c c' H H'; cbn in *; try congruence. destruct H as (q & H1 & H2), H' as (q' & H3 & H4). congruence. Qed.
Lemma view_take : forall b n s l s1 d, view b s = Done l s1 -> take n l = Some d -> s1 = s /\ d = bytes_at s b n.
Proof.
  intros b n s l s1 d H T. unfold view in H. destruct (get_obj s (fst b)) as [[x| |]|] eqn:G; try discriminate. destruct (snd b <=? N.of_nat (length x)); [|discriminate].
  injection H as <- <-. split; [reflexivity|]. unfold take in T. destruct (n <=? _); [|discriminate]. injection T as <-. unfold bytes_at. now rewrite G.
Qed.

Lemma update_asked : forall E P v a p b n e s r s', evp_update E P v a (Some p) b n e s = Done r s' ->
  exists z, (exists s c d, z = fst (p_update P a s c d)) /\ ((0 < n /\ n <= evp_size_max E v /\ b <> None) -> update_refused P v a s (Some p) b n <-> z <> 1%Z).
Proof.
  intros E P v a p b n e s r s' H. unfold evp_update in H. destruct b as [b|]; [|exists (fst (p_update P a s [] [])); split; [eauto|]; intros (_ & _ & X); congruence].
  destruct (evp_size_max E v <? n) eqn:L; [apply N.ltb_lt in L; exists (fst (p_update P a s [] [])); split; [eauto|]; lia|].
  destruct (n =? 0) eqn:Z; [apply N.eqb_eq in Z; exists (fst (p_update P a s [] [])); split; [eauto|]; lia|].
  apply bind_inv in H as (q & s1 & H1 & H). apply bind_inv in H as (c & s2 & H2 & H). destruct (context_bytes _ _ _ _ _ _ _ H1 H2) as (_ & _ & B).
  exists (fst (p_update P a s c (bytes_at s b n))). split; [eauto|]. intros _. split.
  - intros (q' & c' & x & X1 & X2 & X3 & X4). injection X1 as <-. injection X3 as <-. now rewrite (bytes_unique _ _ _ _ _ X2 B) in X4.
  - intros R. now exists p, c, b.
Qed.
Lemma update_told : forall E P v a p b n e s r s', evp_update E P v a p b n e s = Done r s' ->
  tries s' = tries s /\ exists y es, told (Stop (p = None) [E_ARGUMENT_INVALID_VALUE] :: update_events E v (update_refused P v a s p b n) (is_given b) n) y es /\ said e y es r s s'.
Proof.
  intros E P v a p b n e s r s' H. unfold evp_update in H. destruct p as [p|]; [|rewrite fail_eq in H; injection H as <- <-; split; [reflexivity|]; do 2 eexists; split; [now apply told_stop|apply said_one]].
  unfold update_events. destruct b as [b|]; cbn [is_given].
  2:{ rewrite fail_eq in H; injection H as <- <-; split; [reflexivity|]. do 2 eexists. split; [apply told_go; [discriminate|]; now apply told_stop|apply said_one]. }
  change (match v with Legacy true => if plat64 E then 2 ^ 32 - 1 else ssize_max E | _ => ssize_max E end) with (evp_size_max E v).
  destruct (evp_size_max E v <? n) eqn:L.
  { apply N.ltb_lt in L. rewrite fail_eq in H; injection H as <- <-; split; [reflexivity|]. do 2 eexists. split; [do 2 (apply told_go; [discriminate|]); now apply told_stop|apply said_one]. }
  apply N.ltb_ge in L. destruct (n =? 0) eqn:Z.
  { apply N.eqb_eq in Z. injection H as <- <-. split; [reflexivity|]. exists true, []. split; [|now apply said_nil]. do 2 (apply told_go; [discriminate|]).
    apply told_go; [lia|]. apply told_go; [lia|]. apply told_all. }
  apply N.eqb_neq in Z. apply bind_inv in H as (q & s1 & H1 & H). apply bind_inv in H as (c & s2 & H2 & H). destruct (context_bytes _ _ _ _ _ _ _ H1 H2) as (-> & -> & B).
  apply bind_inv in H as (l & s3 & H3 & H). apply bind_inv in H as (d & s4 & H4 & H). destruct (take n l) as [d'|] eqn:T; [|discriminate]. injection H4 as -> ->.
  destruct (view_take _ _ _ _ _ _ H3 T) as (-> & ->). apply bind_inv in H as (x & s5 & H5 & H). unfold ask in H5. injection H5 as <- <-.
  apply bind_inv in H as (u & s6 & H6 & H). destruct (q_store _ _ _ _ _ H6) as (Q & Y). destruct (fst (p_update P a s c (bytes_at s b n)) =? 1)%Z eqn:R.
  - apply Z.eqb_eq in R. injection H as <- <-. split; [exact Y|]. exists true, []. split; [|now apply said_nil].
    do 2 (apply told_go; [discriminate|]). apply told_go; [lia|]. apply told_go; [|apply told_all]. intros (_ & q' & c' & x & X1 & X2 & X3 & X4). injection X1 as <-. injection X3 as <-.
    rewrite (bytes_unique _ _ _ _ _ X2 B) in X4. contradiction.
  - apply Z.eqb_neq in R. rewrite fail_eq in H. injection H as <- <-. split; [exact Y|]. do 2 eexists. split; [|eapply said_before; [exact Q|apply said_one]].
    do 2 (apply told_go; [discriminate|]). apply told_go; [lia|]. apply told_stop. split; [lia|]. now exists p, c, b.
Qed.

Lemma final_told : forall E P v a p h n e s r s', evp_finalize E P v a p h n e s = Done r s' ->
  tries s' = tries s /\ exists y es, told (Stop (p = None) [E_ARGUMENT_INVALID_VALUE] :: final_events E v a (final_refused P v a s p) (is_given h) n) y es /\ said e y es r s s'.
Proof.
  intros E P v a p h n e s r s' H. unfold evp_finalize in H. destruct p as [p|]; [|rewrite fail_eq in H; injection H as <- <-; split; [reflexivity|]; do 2 eexists; split; [now apply told_stop|apply said_one]].
  unfold final_events. destruct h as [h|]; cbn [is_given].
  2:{ rewrite fail_eq in H; injection H as <- <-; split; [reflexivity|]. do 2 eexists. split; [apply told_go; [discriminate|]; now apply told_stop|apply said_one]. }
  rewrite <- !digest_is in H.
  assert (Main : (q <- provider_context v p ;; c <- load_provider q ;; r <- ask (fun s => p_final P a s c) ;; write h (snd (fst r)) ;;; store_provider q (snd r) ;;;
     if (fst (fst r) =? 1)%Z then ret 1%Z else fail e E_RUNTIME_FINALIZE_FAILED) s = Done r s' ->
     tries s' = tries s /\ exists y es, told [Stop (final_refused P v a s (Some p)) [E_RUNTIME_FINALIZE_FAILED]] y es /\ said e y es r s s').
  { clear H. intros H. apply bind_inv in H as (q & s1 & H1 & H). apply bind_inv in H as (c & s2 & H2 & H). destruct (context_bytes _ _ _ _ _ _ _ H1 H2) as (-> & -> & B).
    apply bind_inv in H as (x & s5 & H5 & H). unfold ask in H5. injection H5 as <- <-. apply bind_inv in H as (u & s6 & H6 & H). destruct (q_write _ _ _ _ _ H6) as (Q & Y).
    apply bind_inv in H as (u' & s7 & H7 & H). destruct (q_store _ _ _ _ _ H7) as (Q' & Y'). destruct (fst (fst (p_final P a s c)) =? 1)%Z eqn:R.
    - apply Z.eqb_eq in R. injection H as <- <-. split; [congruence|]. exists true, []. split; [|apply said_nil; congruence]. apply told_go; [|apply told_all].
      intros (q' & c' & X1 & X2 & X4). injection X1 as <-. rewrite (bytes_unique _ _ _ _ _ X2 B) in X4. contradiction.
    - apply Z.eqb_neq in R. rewrite fail_eq in H. injection H as <- <-. split; [cbn; congruence|]. do 2 eexists. split; [|eapply said_before; [|apply said_one]; congruence].
      apply told_stop. now exists p, c. }
  destruct v as [l| |].
  - destruct (ssize_max E <? n) eqn:L.
    { apply N.ltb_lt in L. rewrite fail_eq in H; injection H as <- <-; split; [reflexivity|]. do 2 eexists. split; [do 2 (apply told_go; [discriminate|]); now apply told_stop|apply said_one]. }
    apply N.ltb_ge in L. destruct (n <? digest_size a) eqn:L2.
    { apply N.ltb_lt in L2. rewrite fail_eq in H; injection H as <- <-; split; [reflexivity|]. do 2 eexists.
      split; [do 2 (apply told_go; [discriminate|]); apply told_go; [lia|]; now apply told_stop|apply said_one]. }
    apply N.ltb_ge in L2. destruct (Main H) as (T & y & es & X & Y). split; [exact T|]. exists y, es. split; [|exact Y].
    do 2 (apply told_go; [discriminate|]). apply told_go; [lia|]. apply told_go; [lia|]. exact X.
  - destruct ((n <? digest_size a) || (2 ^ 32 - 1 <? n)) eqn:L.
    { apply orb_prop in L. rewrite !N.ltb_lt in L. rewrite fail_eq in H; injection H as <- <-; split; [reflexivity|]. do 2 eexists. split; [do 2 (apply told_go; [discriminate|]); now apply told_stop|apply said_one]. }
    apply orb_false_iff in L as (L1 & L2). apply N.ltb_ge in L1, L2. destruct (Main H) as (T & y & es & X & Y). split; [exact T|]. exists y, es. split; [|exact Y].
    do 2 (apply told_go; [discriminate|]). apply told_go; [lia|]. exact X.
  - destruct ((n <? digest_size a) || (2 ^ 32 - 1 <? n)) eqn:L.
    { apply orb_prop in L. rewrite !N.ltb_lt in L. rewrite fail_eq in H; injection H as <- <-; split; [reflexivity|]. do 2 eexists. split; [do 2 (apply told_go; [discriminate|]); now apply told_stop|apply said_one]. }
    apply orb_false_iff in L as (L1 & L2). apply N.ltb_ge in L1, L2. destruct (Main H) as (T & y & es & X & Y). split; [exact T|]. exists y, es. split; [|exact Y].
    do 2 (apply told_go; [discriminate|]). apply told_go; [lia|]. exact X.
Qed.

Lemma free_told : forall P v a c e s r c' s', evp_free P v a c e s = Done (r, c') s' ->
  c' = None /\ tries s' = tries s /\ exists y es, told [Stop (c = None) [E_ARGUMENT_INVALID_VALUE]; Note (c <> Some None /\ v = Inside /\ p_cleanup P a s <> 1%Z) [E_RUNTIME_FINALIZE_FAILED]] y es /\ said e y es r s s'.
Proof.
  intros P v a c e s r c' s' H. unfold evp_free in H. destruct c as [[p|]|].
  - apply bind_inv in H as (u & s1 & H1 & H). apply bind_inv in H as (u' & s2 & H2 & H). destruct (q_free _ _ _ _ H2) as (Q & T). injection H as <- <- <-. split; [reflexivity|].
    destruct v as [l| |].
    + injection H1 as <- <-. split; [exact T|]. exists true, []. split; [|now apply said_nil]. apply told_go; [discriminate|]. apply told_skip; [intuition congruence|]. apply told_all.
    + apply bind_inv in H1 as (z & s3 & H3 & H1). unfold ask in H3. injection H3 as <- <-. destruct (p_cleanup P a s =? 1)%Z eqn:R.
      * apply Z.eqb_eq in R. injection H1 as <- <-. split; [exact T|]. exists true, []. split; [|now apply said_nil]. apply told_go; [discriminate|]. apply told_skip; [intuition congruence|]. apply told_all.
      * apply Z.eqb_neq in R. injection H1 as <- <-. split; [exact T|]. exists true, ([E_RUNTIME_FINALIZE_FAILED] ++ []). split.
        { apply told_go; [discriminate|]. apply told_note; [|apply told_all]. now repeat split. }
        split; [reflexivity|]. rewrite Q. cbn. destruct e; [reflexivity|now rewrite app_nil_r].
    + apply bind_inv in H1 as (q & s3 & H3 & H1). destruct (q_context _ _ _ _ _ H3). apply bind_inv in H1 as (w & s4 & H4 & H1). destruct (q_free _ _ _ _ H4), (q_set _ _ _ _ _ H1).
      split; [congruence|]. exists true, []. split; [|apply said_nil; congruence]. apply told_go; [discriminate|]. apply told_skip; [intuition congruence|]. apply told_all.
  - injection H as <- <- <-. split; [reflexivity|]. split; [reflexivity|]. exists true, []. split; [|now apply said_nil]. apply told_go; [discriminate|]. apply told_skip; [intuition congruence|]. apply told_all.
  - failed H. injection H as <- <- <-. split; [reflexivity|]. split; [reflexivity|]. do 2 eexists. split; [now apply told_stop|apply said_one].
Qed.

Lemma update_answer : forall E P v a p b n e s r s', evp_update E P v a (Some p) b n e s = Done r s' ->
  tries s' = tries s /\ exists z y es, (exists s c d, z = fst (p_update P a s c d)) /\ told (update_events E v (z <> 1%Z) (is_given b) n) y es /\ said e y es r s s'.
Proof.
  intros E P v a p b n e s r s' H. destruct (update_told _ _ _ _ _ _ _ _ _ _ _ H) as (T & y & es & X & S). split; [exact T|].
  destruct (update_asked _ _ _ _ _ _ _ _ _ _ _ H) as (z & Z & A). exists z, y, es. split; [exact Z|]. split; [|exact S]. inversion X as [|? ? ? F|? ? ? ? ? _ X1| |]; subst; [discriminate|].
  unfold update_events in *. refine (told_last [_; _] _ _ _ _ _ X1 _). intros es' Y.
  pose proof (told_in _ _ _ _ Y (or_introl eq_refl)) as Y1. pose proof (told_in _ _ _ _ Y (or_intror (or_introl eq_refl))) as Y2. cbv beta in Y1, Y2.
  assert (B : b <> None) by (destruct b; [discriminate|now elim Y1]). assert (L : n <= evp_size_max E v) by (unfold evp_size_max; lia).
  split; intros (N0 & R); (split; [exact N0|]); apply A; auto.
Qed.

Lemma final_answer : forall E P v a p h n e s r s', evp_finalize E P v a (Some p) h n e s = Done r s' ->
  tries s' = tries s /\ exists z y es, (exists s c, z = fst (fst (p_final P a s c))) /\ told (final_events E v a (z <> 1%Z) (is_given h) n) y es /\ said e y es r s s'.
Proof.
  intros E P v a p h n e s r s' H. destruct (final_told _ _ _ _ _ _ _ _ _ _ _ H) as (T & y & es & X & S). split; [exact T|]. inversion X as [|? ? ? F|? ? ? ? ? _ X1| |]; subst; [discriminate|]. clear X.
  assert (A : exists z, (exists s c, z = fst (fst (p_final P a s c))) /\ ((exists es, told ([Stop (is_given h = false) [E_ARGUMENT_INVALID_VALUE]] ++
     match v with
     | Legacy _ => [ Stop (ssize_max E < n) [E_ARGUMENT_VALUE_EXCEEDS_MAXIMUM]; Stop (n < digest_size a) [E_ARGUMENT_VALUE_TOO_SMALL] ]
     | _ => [ Stop (n < digest_size a \/ 2 ^ 32 - 1 < n) [E_ARGUMENT_VALUE_OUT_OF_BOUNDS] ]
     end) true es) -> final_refused P v a s (Some p) <-> z <> 1%Z)).
  { clear X1 S T. unfold evp_finalize in H. destruct h as [h|].
    2:{ exists (fst (fst (p_final P a s []))). split; [eauto|]. intros (es' & Y). now elim (told_in _ _ _ _ Y (or_introl eq_refl)). }
    rewrite <- !digest_is in H. cbv zeta in H.
    destruct (match v with Legacy _ => _ | _ => _ end) as [k|] eqn:K in H.
    - exists (fst (fst (p_final P a s []))). split; [eauto|]. intros (es' & Y). exfalso. destruct v as [l| |]; cbn [app] in Y.
      + destruct (ssize_max E <? n) eqn:L1; [apply N.ltb_lt in L1; now elim (told_in _ _ _ _ Y (or_intror (or_introl eq_refl)))|].
        destruct (n <? digest_size a) eqn:L2; [apply N.ltb_lt in L2; now elim (told_in _ _ _ _ Y (or_intror (or_intror (or_introl eq_refl))))|discriminate].
      + destruct ((n <? digest_size a) || (2 ^ 32 - 1 <? n)) eqn:L; [|discriminate]. apply orb_prop in L. rewrite !N.ltb_lt in L. now elim (told_in _ _ _ _ Y (or_intror (or_introl eq_refl))).
      + destruct ((n <? digest_size a) || (2 ^ 32 - 1 <? n)) eqn:L; [|discriminate]. apply orb_prop in L. rewrite !N.ltb_lt in L. now elim (told_in _ _ _ _ Y (or_intror (or_introl eq_refl))).
    - apply bind_inv in H as (q & s1 & H1 & H). apply bind_inv in H as (c & s2 & H2 & H). destruct (context_bytes _ _ _ _ _ _ _ H1 H2) as (_ & _ & B).
      exists (fst (fst (p_final P a s c))). split; [eauto|]. intros _. split.
      + intros (q' & c' & Y1 & Y2 & Y3). injection Y1 as <-. now rewrite (bytes_unique _ _ _ _ _ Y2 B) in Y3.
      + intros R. now exists p, c. }
  destruct A as (z & Z & A). exists z, y, es. split; [exact Z|]. split; [|exact S]. unfold final_events in *. rewrite app_assoc in *. refine (told_last _ _ _ _ _ _ X1 _). eauto.
Qed.

Lemma free_answer : forall P v a p e s r c' s', evp_free P v a (Some (Some p)) e s = Done (r, c') s' ->
  c' = None /\ r = 1%Z /\ tries s' = tries s /\ exists es, told (close_events v (p_cleanup P a s <> 1%Z)) true es /\ said e true es r s s'.
Proof.
  intros P v a p e s r c' s' H. destruct (free_told _ _ _ _ _ _ _ _ _ H) as (C & T & y & es & X & S). split; [exact C|].
  inversion X as [|? ? ? F|? ? ? ? ? _ X1| |]; subst; [discriminate|]. inversion X1 as [| | |? ? ? ? ? N0 X2|? ? ? ? ? N0 X2]; subst; inversion X2; subst; destruct S as (R & S); cbn in R; subst r.
  - split; [reflexivity|]. split; [exact T|]. exists ([E_RUNTIME_FINALIZE_FAILED] ++ []). split; [|now split]. apply told_note; [tauto|apply told_all].
  - split; [reflexivity|]. split; [exact T|]. exists []. split; [|now split]. apply told_skip; [|apply told_all]. intros N1. apply N0. split; [discriminate|exact N1].
Qed.

Lemma free_silent : forall P v a p s r c' s', evp_free P v a (Some (Some p)) false s = Done (r, c') s' -> errs s' = errs s /\ tries s' = tries s.
Proof. intros P v a p s r c' s' H. destruct (free_answer _ _ _ _ _ _ _ _ _ H) as (_ & _ & T & es & _ & _ & S). rewrite app_nil_r in S. now split. Qed.

Lemma init_told : forall E P v a c e s r c' s', evp_initialize E P v a c e s = Done (r, c') s' ->
  exists s1 y es, (forall q, (q < length (mem s))%nat -> nth_error (mem s1) q = nth_error (mem s) q) /\
  told ([Stop (c = None) [E_ARGUMENT_INVALID_VALUE]; Stop (c <> Some None) [E_RUNTIME_VALUE_ALREADY_SET]] ++ open_events E v (fst (p_init P a s1) <> 1%Z) (tries s)) y es /\ said e y es r s s' /\
  (y = false -> c' = match c with Some q => q | None => None end) /\ (y = true -> c' <> None /\ tries s' = tries s + per_context v)%nat.
Proof.
  intros E P v a c e s r c' s' H. destruct c as [[q|]|].
  - cbn [evp_initialize] in H. apply bind_inv in H as (z & s1 & H1 & H). rewrite fail_eq in H1. injection H1 as <- <-. injection H as <- <- <-. exists s, false, [E_RUNTIME_VALUE_ALREADY_SET].
    split; [reflexivity|]. split; [apply told_go; [discriminate|]; apply told_stop; discriminate|]. split; [apply said_one|]. split; [reflexivity|discriminate].
  - destruct (init_events _ _ _ _ _ _ _ _ _ H) as (s1 & y & es & M & T & S & C & _ & Q). exists s1, y, es. split; [exact M|]. split; [apply told_go; [discriminate|]; apply told_go; [congruence|exact T]|].
    split; [exact S|]. split.
    + intros ->. destruct c'; [|reflexivity]. assert (false = true) by (apply C; discriminate). discriminate.
    + intros Y. split; [now apply C|now apply Q].
  - cbn [evp_initialize] in H. apply bind_inv in H as (z & s1 & H1 & H). rewrite fail_eq in H1. injection H1 as <- <-. injection H as <- <- <-. exists s, false, [E_ARGUMENT_INVALID_VALUE].
    split; [reflexivity|]. split; [now apply told_stop|]. split; [apply said_one|]. split; [reflexivity|discriminate].
Qed.

(* ------------------------------------------------------------- the functions above *)

Lemma said_cases : forall e y es r s s', said e y es r s s' -> (y = true /\ r = 1%Z) \/ (y = false /\ r = (-1)%Z).
Proof. intros e [] es r s s' (R & _); auto. Qed.

Lemma give_up_quiet : forall E P v a c, quiet (calculate_on_error_with (evp E P v a) c).
Proof.
  intros E P v a [p|] s x s' H; cbn [calculate_on_error_with] in H; [|injection H as <- <-; now split].
  apply bind_inv in H as ((r, c) & s1 & H1 & H). injection H as <- <-. cbn [f_free evp] in H1. exact (free_silent _ _ _ _ _ _ _ _ H1).
Qed.
Lemma give_up_value : forall F c s x s', calculate_on_error_with F c s = Done x s' -> x = (-1)%Z.
Proof. intros F [p|] s x s' H; cbn in H; [|now injection H as <- <-]. apply bind_inv in H as (r & s1 & H1 & H). now injection H as <- <-. Qed.

(* an error is added and the context given up: the entries so far, with those of the failed step *)
Lemma stop_here : forall k l l0 l1 e es0 es r s s0 s1, told l0 true es0 -> said e true es0 1%Z s s0 ->
  told l false es -> said e false es r s0 s1 ->
  told (l0 ++ and_then k l ++ l1) false (es0 ++ es ++ [k]) /\ said e false (es0 ++ es ++ [k]) (-1)%Z s (add_err e k s1).
Proof.
  intros k l l0 l1 e es0 es r s s0 s1 T0 S0 T1 S1. split.
  - apply told_app; [exact T0|]. apply told_app_stop. now apply told_then_false.
  - eapply said_trans; [exact S0|]. eapply said_more. exact S1.
Qed.
Lemma go_on : forall k l l0 e es0 es r s s0 s1, told l0 true es0 -> said e true es0 1%Z s s0 -> told l true es -> said e true es r s0 s1 ->
  told (l0 ++ and_then k l) true (es0 ++ es) /\ said e true (es0 ++ es) 1%Z s s1.
Proof.
  intros k l l0 e es0 es r s s0 s1 T0 S0 T1 S1. split.
  - apply told_app; [exact T0|]. now apply told_then_true.
  - assert (r = 1%Z) as -> by (apply (proj1 S1)). eapply said_trans; [exact S0|exact S1].
Qed.
Lemma then_app : forall k l l', and_then k (l ++ l') = and_then k l ++ and_then k l'.
Proof. intros. apply map_app. Qed.

(* a session of a context with one or two updates, written over what the three functions have in common *)
Definition session1 {A} (F : functions) (b : option ptr) (n : N) (h : option ptr) (hn : N) (e : bool) (bad : option nat -> M A) (good : M A) : M A :=
  r <- f_initialize F (Some None) e ;;
  if negb (fst r =? 1)%Z then error_set e E_RUNTIME_INITIALIZE_FAILED ;;; bad (snd r)
  else
    q <- f_update F (snd r) b n e ;;
    if negb (q =? 1)%Z then error_set e E_RUNTIME_SET_FAILED ;;; bad (snd r)
    else
      q <- f_finalize F (snd r) h hn e ;;
      if negb (q =? 1)%Z then error_set e E_RUNTIME_FINALIZE_FAILED ;;; bad (snd r)
      else
        q <- f_free F (Some (snd r)) e ;;
        if negb (fst q =? 1)%Z then error_set e E_RUNTIME_FINALIZE_FAILED ;;; bad (snd q) else good.

Definition some_answer (P : provider) (a : algid) (s : state) : answers :=
  mk_answers (fst (p_init P a s)) (fst (p_update P a s [] [])) (fst (p_update P a s [] [])) (fst (fst (p_final P a s []))) (p_cleanup P a s).
Lemma some_answer_of : forall P a s, answers_of P a (some_answer P a s).
Proof. intros P a s. split; cbn; eauto. Qed.

(* after the first step: a list of calls for one context *)
Lemma session_open : forall E P v a e s r s1, evp_initialize E P v a (Some None) e s = Done r s1 ->
  exists i y es, (exists s, i = fst (p_init P a s)) /\ told (open_events E v (i <> 1%Z) (tries s)) y es /\ said e y es (fst r) s s1 /\
  (tries s1 <= tries s + per_context v)%nat /\ (y = true -> tries s1 = (tries s + per_context v)%nat /\ exists p, snd r = Some p).
Proof.
  intros E P v a e s (r, c) s1 H. destruct (init_events _ _ _ _ _ _ _ _ _ H) as (s0 & y & es & _ & T & S & C & L & Q). exists (fst (p_init P a s0)), y, es.
  split; [eauto|]. split; [exact T|]. split; [exact S|]. split; [exact L|]. intros Y. split; [now apply Q|]. cbn [snd]. destruct c as [p|]; [eauto|]. now elim (proj1 C Y).
Qed.

Ltac answer L H := let z := fresh "z" in let y := fresh "y" in let es := fresh "es" in let Z := fresh "Z" in let T := fresh "T" in let S := fresh "S" in let K := fresh "K" in
  destruct (L _ _ _ _ _ _ _ _ _ _ _ H) as (K & z & y & es & Z & T & S).

Lemma session1_told : forall E P v a A b n h hn e (bad : option nat -> M A) good s r s', session1 (evp E P v a) b n h hn e bad good s = Done r s' ->
  exists x y es s1, answers_of P a x /\ told (session_events E v a x (tries s) (update_events E v (ans_first x <> 1%Z) (is_given b) n) (is_given h) hn) y es /\
  said e y es (if y then 1%Z else (-1)%Z) s s1 /\ (tries s1 <= tries s + per_context v)%nat /\ (y = true -> tries s1 = tries s + per_context v)%nat /\
  if y then good s1 = Done r s' else exists c, bad c s1 = Done r s'.
Proof.
  intros E P v a A b n h hn e bad good s r s' H. unfold session1 in H. pose proof (some_answer_of P a s) as [Z1 Z2 Z3 Z4 Z5]. set (x0 := some_answer P a s) in *.
  apply bind_inv in H as (r0 & s1 & H1 & H). cbn [evp f_initialize] in H1. destruct (session_open _ _ _ _ _ _ _ _ H1) as (i & y0 & es0 & I & T0 & S0 & L0 & Q0).
  unfold session_events.
  destruct (said_cases _ _ _ _ _ _ S0) as [(-> & R)|(-> & R)]; rewrite R in H; cbn [negb Z.eqb Pos.eqb] in H.
  2:{ apply bind_inv in H as (u & s2 & H2 & H). injection H2 as <- <-. exists (mk_answers i (ans_first x0) (ans_second x0) (ans_final x0) (ans_cleanup x0)), false, (es0 ++ [E_RUNTIME_INITIALIZE_FAILED]). eexists.
      split; [split; cbn; eauto|]. cbn [ans_init]. split; [apply told_app_stop; now apply told_then_false|]. split; [eapply said_more; exact S0|]. split; [exact L0|]. split; [discriminate|]. now exists (snd r0). }
  destruct (Q0 eq_refl) as (Y0 & p & P0). clear Q0. rewrite R in S0. rewrite P0 in H.
  apply bind_inv in H as (q & s2 & H2 & H). cbn [evp f_update] in H2. answer update_answer H2.
  destruct (said_cases _ _ _ _ _ _ S) as [(-> & R1)|(-> & R1)]; subst q; cbn [negb Z.eqb Pos.eqb] in H.
  2:{ apply bind_inv in H as (u & s3 & H3 & H). injection H3 as <- <-. exists (mk_answers i z (ans_second x0) (ans_final x0) (ans_cleanup x0)), false, (es0 ++ es ++ [E_RUNTIME_SET_FAILED]). eexists.
      split; [split; cbn; eauto|]. cbn [ans_init ans_first].
      destruct (stop_here E_RUNTIME_SET_FAILED _ _ (and_then E_RUNTIME_FINALIZE_FAILED (final_events E v a (ans_final x0 <> 1%Z) (is_given h) hn) ++ close_events v (ans_cleanup x0 <> 1%Z))
        e _ _ _ _ _ _ (told_then_true E_RUNTIME_INITIALIZE_FAILED _ _ T0) S0 T S) as (X1 & X2).
      split; [exact X1|]. split; [exact X2|]. cbn [tries add_err]. split; [lia|]. split; [discriminate|]. now exists (Some p). }
  destruct (go_on E_RUNTIME_SET_FAILED _ _ _ _ _ _ _ _ _ (told_then_true E_RUNTIME_INITIALIZE_FAILED _ _ T0) S0 T S) as (X1 & X2).
  apply bind_inv in H as (q & s3 & H3 & H). cbn [evp f_finalize] in H3. answer final_answer H3.
  destruct (said_cases _ _ _ _ _ _ S1) as [(-> & R2)|(-> & R2)]; subst q; cbn [negb Z.eqb Pos.eqb] in H.
  2:{ apply bind_inv in H as (u & s4 & H4 & H). injection H4 as <- <-. exists (mk_answers i z (ans_second x0) z0 (ans_cleanup x0)), false, ((es0 ++ es) ++ es1 ++ [E_RUNTIME_FINALIZE_FAILED]). eexists.
      split; [split; cbn; eauto|]. cbn [ans_init ans_first ans_final].
      destruct (stop_here E_RUNTIME_FINALIZE_FAILED _ _ (close_events v (ans_cleanup x0 <> 1%Z)) e _ _ _ _ _ _ X1 X2 T1 S1) as (X3 & X4).
      split; [rewrite <- app_assoc in X3; exact X3|]. split; [exact X4|]. cbn [tries add_err]. split; [lia|]. split; [discriminate|]. now exists (Some p). }
  destruct (go_on E_RUNTIME_FINALIZE_FAILED _ _ _ _ _ _ _ _ _ X1 X2 T1 S1) as (X3 & X4).
  apply bind_inv in H as ((q, c) & s4 & H4 & H). cbn [evp f_free] in H4. destruct (free_answer _ _ _ _ _ _ _ _ _ H4) as (-> & -> & K4 & es4 & T4 & S4).
  cbn [negb Z.eqb Pos.eqb fst] in H.
  exists (mk_answers i z (ans_second x0) z0 (p_cleanup P a s3)), true, (((es0 ++ es) ++ es1) ++ es4), s4. split; [split; cbn; eauto|]. cbn [ans_init ans_first ans_final ans_cleanup].
  split; [rewrite !app_assoc; apply told_app; [rewrite <- !app_assoc in X3 |- *; exact X3|exact T4]|]. split; [eapply said_trans; [exact X4|exact S4]|]. split; [lia|]. split; [lia|exact H].
Qed.

Definition session2 {A} (F : functions) (b0 : option ptr) (n0 : N) (b : option ptr) (n : N) (h : option ptr) (hn : N) (e : bool) (bad : option nat -> M A) (good : M A) : M A :=
  r <- f_initialize F (Some None) e ;;
  if negb (fst r =? 1)%Z then error_set e E_RUNTIME_INITIALIZE_FAILED ;;; bad (snd r)
  else
    q <- f_update F (snd r) b0 n0 e ;;
    if negb (q =? 1)%Z then error_set e E_RUNTIME_SET_FAILED ;;; bad (snd r)
    else
      q <- f_update F (snd r) b n e ;;
      if negb (q =? 1)%Z then error_set e E_RUNTIME_SET_FAILED ;;; bad (snd r)
      else
        q <- f_finalize F (snd r) h hn e ;;
        if negb (q =? 1)%Z then error_set e E_RUNTIME_FINALIZE_FAILED ;;; bad (snd r)
        else
          q <- f_free F (Some (snd r)) e ;;
          if negb (fst q =? 1)%Z then error_set e E_RUNTIME_FINALIZE_FAILED ;;; bad (snd q) else good.

Lemma session2_told : forall E P v a A b0 n0 b n h hn e (bad : option nat -> M A) good s r s', session2 (evp E P v a) b0 n0 b n h hn e bad good s = Done r s' ->
  exists x y es s1, answers_of P a x /\ told (session_events E v a x (tries s)
    (update_events E v (ans_first x <> 1%Z) (is_given b0) n0 ++ update_events E v (ans_second x <> 1%Z) (is_given b) n) (is_given h) hn) y es /\
  said e y es (if y then 1%Z else (-1)%Z) s s1 /\ (tries s1 <= tries s + per_context v)%nat /\ (y = true -> tries s1 = tries s + per_context v)%nat /\
  if y then good s1 = Done r s' else exists c, bad c s1 = Done r s'.
Proof.
  intros E P v a A b0 n0 b n h hn e bad good s r s' H. unfold session2 in H. pose proof (some_answer_of P a s) as [Z1 Z2 Z3 Z4 Z5]. set (x0 := some_answer P a s) in *.
  apply bind_inv in H as (r0 & s1 & H1 & H). cbn [evp f_initialize] in H1. destruct (session_open _ _ _ _ _ _ _ _ H1) as (i & y0 & es0 & I & T0 & S0 & L0 & Q0).
  unfold session_events. setoid_rewrite (then_app E_RUNTIME_SET_FAILED).
  destruct (said_cases _ _ _ _ _ _ S0) as [(-> & R)|(-> & R)]; rewrite R in H; cbn [negb Z.eqb Pos.eqb] in H.
  2:{ apply bind_inv in H as (u & s2 & H2 & H). injection H2 as <- <-. exists (mk_answers i (ans_first x0) (ans_second x0) (ans_final x0) (ans_cleanup x0)), false, (es0 ++ [E_RUNTIME_INITIALIZE_FAILED]). eexists.
      split; [split; cbn; eauto|]. cbn [ans_init]. split; [apply told_app_stop; now apply told_then_false|]. split; [eapply said_more; exact S0|]. split; [exact L0|]. split; [discriminate|]. now exists (snd r0). }
  destruct (Q0 eq_refl) as (Y0 & p & P0). clear Q0. rewrite R in S0. rewrite P0 in H.
  apply bind_inv in H as (q & s2 & H2 & H). cbn [evp f_update] in H2. destruct (update_answer _ _ _ _ _ _ _ _ _ _ _ H2) as (K1 & z1 & y1 & es1 & W1 & T1 & S1).
  destruct (said_cases _ _ _ _ _ _ S1) as [(-> & R1)|(-> & R1)]; subst q; cbn [negb Z.eqb Pos.eqb] in H.
  2:{ apply bind_inv in H as (u & s3 & H3 & H). injection H3 as <- <-. exists (mk_answers i z1 (ans_second x0) (ans_final x0) (ans_cleanup x0)), false, (es0 ++ es1 ++ [E_RUNTIME_SET_FAILED]). eexists.
      split; [split; cbn; eauto|]. cbn [ans_init ans_first ans_second ans_final ans_cleanup]. rewrite <- app_assoc.
      split; [apply told_app; [apply told_then_true; exact T0|]; apply told_app_stop; apply told_then_false; exact T1|].
      split; [eapply said_trans; [exact S0|eapply said_more; exact S1]|]. cbn [tries add_err]. split; [lia|]. split; [discriminate|]. now exists (Some p). }
  destruct (go_on E_RUNTIME_SET_FAILED _ _ _ _ _ _ _ _ _ (told_then_true E_RUNTIME_INITIALIZE_FAILED _ _ T0) S0 T1 S1) as (X1 & X2).
  apply bind_inv in H as (q & s3 & H3 & H). cbn [evp f_update] in H3. destruct (update_answer _ _ _ _ _ _ _ _ _ _ _ H3) as (K2 & z2 & y2 & es2 & W2 & T2 & S2).
  destruct (said_cases _ _ _ _ _ _ S2) as [(-> & R2)|(-> & R2)]; subst q; cbn [negb Z.eqb Pos.eqb] in H.
  2:{ apply bind_inv in H as (u & s4 & H4 & H). injection H4 as <- <-. exists (mk_answers i z1 z2 (ans_final x0) (ans_cleanup x0)), false, ((es0 ++ es1) ++ es2 ++ [E_RUNTIME_SET_FAILED]). eexists.
      split; [split; cbn; eauto|]. cbn [ans_init ans_first ans_second ans_final ans_cleanup].
      destruct (stop_here E_RUNTIME_SET_FAILED _ _ (and_then E_RUNTIME_FINALIZE_FAILED (final_events E v a (ans_final x0 <> 1%Z) (is_given h) hn) ++ close_events v (ans_cleanup x0 <> 1%Z))
        e _ _ _ _ _ _ X1 X2 T2 S2) as (X3 & X4).
      split; [eapply told_eq; [|exact X3]; now rewrite <- !app_assoc|]. split; [exact X4|]. cbn [tries add_err]. split; [lia|]. split; [discriminate|]. now exists (Some p). }
  destruct (go_on E_RUNTIME_SET_FAILED _ _ _ _ _ _ _ _ _ X1 X2 T2 S2) as (X3 & X4). clear X1 X2.
  apply bind_inv in H as (q & s4 & H4 & H). cbn [evp f_finalize] in H4. destruct (final_answer _ _ _ _ _ _ _ _ _ _ _ H4) as (K3 & z3 & y3 & es3 & W3 & T3 & S3).
  destruct (said_cases _ _ _ _ _ _ S3) as [(-> & R3)|(-> & R3)]; subst q; cbn [negb Z.eqb Pos.eqb] in H.
  2:{ apply bind_inv in H as (u & s5 & H5 & H). injection H5 as <- <-. exists (mk_answers i z1 z2 z3 (ans_cleanup x0)), false, (((es0 ++ es1) ++ es2) ++ es3 ++ [E_RUNTIME_FINALIZE_FAILED]). eexists.
      split; [split; cbn; eauto|]. cbn [ans_init ans_first ans_second ans_final ans_cleanup].
      destruct (stop_here E_RUNTIME_FINALIZE_FAILED _ _ (close_events v (ans_cleanup x0 <> 1%Z)) e _ _ _ _ _ _ X3 X4 T3 S3) as (X5 & X6).
      split; [eapply told_eq; [|exact X5]; now rewrite <- !app_assoc|]. split; [exact X6|]. cbn [tries add_err]. split; [lia|]. split; [discriminate|]. now exists (Some p). }
  destruct (go_on E_RUNTIME_FINALIZE_FAILED _ _ _ _ _ _ _ _ _ X3 X4 T3 S3) as (X5 & X6).
  apply bind_inv in H as ((q, c) & s5 & H5 & H). cbn [evp f_free] in H5. destruct (free_answer _ _ _ _ _ _ _ _ _ H5) as (-> & -> & K4 & es4 & T4 & S4).
  cbn [negb Z.eqb Pos.eqb fst] in H.
  exists (mk_answers i z1 z2 z3 (p_cleanup P a s4)), true, ((((es0 ++ es1) ++ es2) ++ es3) ++ es4), s5. split; [split; cbn; eauto|]. cbn [ans_init ans_first ans_second ans_final ans_cleanup].
  split; [eapply told_eq; [|exact (told_app _ _ _ _ _ X5 T4)]; now rewrite <- !app_assoc|]. split; [eapply said_trans; [exact X6|exact S4]|]. split; [lia|]. split; [lia|exact H].
Qed.

Lemma calculate_told : forall E P v a b n h hn e s r s', calculate_with (evp E P v a) a b n h hn e s = Done r s' ->
  exists x y es, answers_of P a x /\ told (calculate_events E v a x b n h hn (tries s)) y es /\ said e y es r s s' /\
  (tries s' <= tries s + per_context v)%nat /\ (y = true -> tries s' = tries s + per_context v)%nat.
Proof.
  intros E P v a b n h hn e s r s' H.
  destruct (session1_told E P v a Z b n h hn e (calculate_on_error_with (evp E P v a)) (ret 1%Z) s r s' H) as (x & y & es & s1 & X & T & S & L & Q & C).
  exists x, y, es. split; [exact X|]. split; [exact T|]. destruct y.
  - injection C as <- <-. split; [exact S|]. now split.
  - destruct C as (c & C). destruct (give_up_quiet _ _ _ _ _ _ _ _ C) as (Q1 & Q2). apply give_up_value in C. subst r. split; [eapply said_after; [exact Q1|exact S]|].
    split; [lia|discriminate].
Qed.

Lemma hmac_give_up : forall E P v a c p1 p2 p3 s x s', hmac_on_error_with (evp E P v a) a c p1 p2 p3 s = Done x s' -> x = (-1)%Z /\ errs s' = errs s /\ tries s' = tries s.
Proof.
  intros E P v a c p1 p2 p3 s x s' H. unfold hmac_on_error_with in H. apply bind_inv in H as (u & s1 & H1 & H).
  assert (Q : errs s1 = errs s /\ tries s1 = tries s).
  { destruct c as [p|]; [|injection H1 as <- <-; now split]. apply bind_inv in H1 as ((r, c) & s2 & H2 & H1). injection H1 as <- <-. exact (free_silent _ _ _ _ _ _ _ _ H2). }
  apply bind_inv in H as (u1 & s2 & H2 & H). apply bind_inv in H as (u2 & s3 & H3 & H). apply bind_inv in H as (u3 & s4 & H4 & H). injection H as <- <-.
  destruct Q, (q_clear _ _ _ _ _ H2), (q_clear _ _ _ _ _ H3), (q_clear _ _ _ _ _ H4). repeat split; congruence.
Qed.

Lemma key_told : forall E P v a kh kd k kn e s r s', hmac_key_data_with (evp E P v a) a kh kd k kn e s = Done r s' ->
  exists x y es, answers_of P a x /\ told (if block_size a <? kn
     then session_events E v a x (tries s) (update_events E v (ans_first x <> 1%Z) true kn) true (digest_size a) else []) y es /\
  said e y es (if y then 1%Z else (-1)%Z) s s' /\
  let m := if block_size a <? kn then per_context v else 0%nat in (tries s' <= tries s + m)%nat /\ (y = true -> r = None /\ tries s' = tries s + m)%nat /\ (y = false -> r <> None).
Proof.
  intros E P v a kh kd k kn e s r s' H. unfold hmac_key_data_with in H. rewrite <- block_is in H. cbv zeta in H. rewrite N.ltb_antisym. destruct (kn <=? block_size a); cbn [negb].
  - apply bind_inv in H as (u & s1 & H1 & H). apply bind_inv in H as (u' & s2 & H2 & H). injection H as <- <-. destruct (q_mcopy _ _ _ _ _ _ H1), (q_mset _ _ _ _ _ _ H2).
    exists (some_answer P a s), true, []. split; [apply some_answer_of|]. split; [apply told_all|]. split; [apply said_nil; congruence|]. split; [lia|]. split; [intros _; split; [reflexivity|lia]|discriminate].
  - rewrite <- digest_is in H.
    destruct (session1_told E P v a _ (Some k) kn (Some (kh, 0)) (digest_size a) e (fun c => ret (Some c)) _ s r s' H) as (x & y & es & s1 & X & T & S & L & Q & C).
    exists x, y, es. split; [exact X|]. split; [exact T|]. destruct y.
    + apply bind_inv in C as (u & s2 & H2 & C). apply bind_inv in C as (u' & s3 & H3 & C). injection C as <- <-. destruct (q_mcopy _ _ _ _ _ _ H3).
      assert (Q2 : errs s2 = errs s1 /\ tries s2 = tries s1) by (destruct (digest_size a <? block_size a); [exact (q_mset _ _ _ _ _ _ H2)|injection H2 as <- <-; now split]).
      destruct Q2. split; [eapply said_after; [|exact S]; congruence|]. specialize (Q eq_refl). split; [lia|]. split; [intros _; split; [reflexivity|lia]|discriminate].
    + destruct C as (c & C). injection C as <- <-. split; [exact S|]. split; [exact L|]. split; [discriminate|discriminate].
Qed.

Lemma pass_told : forall E P v a pad b n h hn e s r s', hmac_pass_with (evp E P v a) a pad b n h hn e s = Done r s' ->
  exists x y es, answers_of P a x /\ told (session_events E v a x (tries s)
    (update_events E v (ans_first x <> 1%Z) true (block_size a) ++ update_events E v (ans_second x <> 1%Z) (is_given b) n) (is_given h) hn) y es /\
  said e y es (if y then 1%Z else (-1)%Z) s s' /\ (tries s' <= tries s + per_context v)%nat /\ (y = true -> r = None /\ tries s' = tries s + per_context v)%nat /\ (y = false -> r <> None).
Proof.
  intros E P v a pad b n h hn e s r s' H. unfold hmac_pass_with in H. rewrite <- block_is in H. cbv zeta in H.
  destruct (session2_told E P v a _ (Some (pad, 0)) (block_size a) b n h hn e (fun c => ret (Some c)) (ret None) s r s' H) as (x & y & es & s1 & X & T & S & L & Q & C).
  exists x, y, es. split; [exact X|]. split; [exact T|]. destruct y.
  - injection C as <- <-. specialize (Q eq_refl). split; [exact S|]. split; [lia|]. split; [now split|discriminate].
  - destruct C as (c & C). injection C as <- <-. split; [exact S|]. split; [exact L|]. split; discriminate.
Qed.

Lemma allocate_bytes_cases : forall E n s x s', allocate_bytes E n s = Done x s' -> errs s' = errs s /\ tries s' = S (tries s) /\
  ((alloc_ok E (tries s) = true /\ exists p, x = Some p) \/ (alloc_ok E (tries s) = false /\ x = None)).
Proof.
  intros E n s x s' H. unfold allocate_bytes in H. destruct (allocate_cases _ _ _ _ _ H) as (Q & T & [(A & N0)|(A & N0)]); (split; [exact Q|]); (split; [exact T|]); [left|right]; split; try assumption.
  destruct x as [p|]; [eauto|congruence].
Qed.

Lemma hmac_told : forall E P v a k kn b n h hn e s r s', calculate_hmac_with E (evp E P v a) a k kn b n h hn e s = Done r s' ->
  exists x1 x2 x3 y es, answers_of P a x1 /\ answers_of P a x2 /\ answers_of P a x3 /\ told (hmac_events E v a x1 x2 x3 k kn b n h hn (tries s)) y es /\ said e y es r s s' /\
  let m := if block_size a <? kn then (3 + 3 * per_context v)%nat else (3 + 2 * per_context v)%nat in (tries s' <= tries s + m)%nat /\ (y = true -> tries s' = tries s + m)%nat.
Proof.
  intros E P v a k kn b n h hn e s r s' H. unfold calculate_hmac_with in H.
  apply bind_inv in H as (kh & s1 & H1 & H). assert (Q1 : errs s1 = errs s /\ tries s1 = tries s) by (injection H1 as <- <-; now split). clear H1. destruct Q1 as (Q1 & T1).
  apply bind_inv in H as (r0 & s2 & H2 & H). apply bind_inv in H as (u & s3 & H3 & H). injection H as <- <-. destruct (q_pop _ _ _ _ H3) as (Q3 & T3). clear H3.
  rewrite T3. rewrite <- T1.
  cut (exists x1 x2 x3 y es, answers_of P a x1 /\ answers_of P a x2 /\ answers_of P a x3 /\ told (hmac_events E v a x1 x2 x3 k kn b n h hn (tries s1)) y es /\ said e y es r0 s1 s2 /\
    let m := if block_size a <? kn then (3 + 3 * per_context v)%nat else (3 + 2 * per_context v)%nat in (tries s2 <= tries s1 + m)%nat /\ (y = true -> tries s2 = tries s1 + m)%nat).
  { intros (x1 & x2 & x3 & y & es & X1 & X2 & X3 & T & S & B). exists x1, x2, x3, y, es. split; [exact X1|]. split; [exact X2|]. split; [exact X3|]. split; [exact T|]. split; [|exact B].
    eapply said_after; [exact Q3|]. eapply said_before; [exact Q1|exact S]. }
  clear s s3 u Q1 T1 Q3 T3. rename s1 into s, s2 into s', r0 into r, H2 into H.
  pose proof (some_answer_of P a s) as X0. set (x0 := some_answer P a s) in *.
  unfold calculate_hmac_body_with in H. cbv zeta in H. rewrite <- block_is, <- digest_is in H. unfold hmac_events. cbv zeta.
  destruct k as [k|]; [|rewrite fail_eq in H; injection H as <- <-; exists x0, x0, x0, false; eexists; do 3 (split; [exact X0|]); split; [now apply told_stop|split; [apply said_one|split; [cbn; lia|discriminate]]]].
  destruct (ssize_max E <? kn) eqn:L1.
  { apply N.ltb_lt in L1. rewrite fail_eq in H; injection H as <- <-; exists x0, x0, x0, false; eexists. do 3 (split; [exact X0|]). split; [apply told_go; [discriminate|]; now apply told_stop|split; [apply said_one|split; [cbn; lia|discriminate]]]. }
  destruct (hn <? digest_size a) eqn:L2.
  { apply N.ltb_ge in L1. apply N.ltb_lt in L2. rewrite fail_eq in H; injection H as <- <-; exists x0, x0, x0, false; eexists. do 3 (split; [exact X0|]).
    split; [apply told_go; [discriminate|]; apply told_go; [lia|]; now apply told_stop|split; [apply said_one|split; [cbn; lia|discriminate]]]. }
  apply N.ltb_ge in L1, L2. apply bind_inv in H as (kd & s1 & H1 & H). destruct (allocate_bytes_cases _ _ _ _ _ H1) as (Q1 & T1 & [(A1 & p1 & ->)|(A1 & ->)]).
  2:{ apply bind_inv in H as (u & s2 & H2 & H). injection H2 as <- <-. destruct (hmac_give_up _ _ _ _ _ _ _ _ _ _ _ H) as (-> & Q2 & T2). exists x0, x0, x0, false; eexists. do 3 (split; [exact X0|]).
      split; [apply told_go; [discriminate|]; apply told_go; [lia|]; apply told_go; [lia|]; apply told_stop; exact A1|].
      split; [eapply said_after; [exact Q2|]; eapply said_before; [exact Q1|]; apply said_one|]. cbn in T2. split; [destruct (block_size a <? kn); lia|discriminate]. }
  assert (TA : told [ Stop (Some k = None) [E_ARGUMENT_INVALID_VALUE]; Stop (ssize_max E < kn) [E_ARGUMENT_VALUE_EXCEEDS_MAXIMUM];
    Stop (hn < digest_size a) [E_ARGUMENT_VALUE_TOO_SMALL]; Stop (alloc_ok E (tries s) = false) [E_MEMORY_INSUFFICIENT] ] true []).
  { apply told_go; [discriminate|]; apply told_go; [lia|]; apply told_go; [lia|]; apply told_go; [congruence|apply told_all]. }
  set (LA := [Stop (Some k = None) _; _; _; _]) in *. clearbody LA.
  apply bind_inv in H as (rk & s2 & H2 & H). destruct (key_told _ _ _ _ _ _ _ _ _ _ _ _ H2) as (x1 & y1 & es1 & X1 & TB & SB & LB & QB & RB).
  assert (Et : (tries s + 1)%nat = tries s1) by lia. rewrite Et. 
  set (t' := if block_size a <? kn then (tries s1 + per_context v)%nat else tries s1).
  destruct y1.
  2:{ destruct rk as [c|]; [|now elim (RB eq_refl)]. destruct (hmac_give_up _ _ _ _ _ _ _ _ _ _ _ H) as (-> & Q2 & T2). exists x1, x0, x0, false, ([] ++ es1). do 3 (split; [assumption|]).
      split; [apply told_app; [exact TA|]; apply told_app_stop; exact TB|]. split; [eapply said_after; [exact Q2|]; eapply said_before; [exact Q1|exact SB]|].
      split; [destruct (block_size a <? kn); lia|discriminate]. }
  destruct (QB eq_refl) as (-> & T2). clear QB RB LB.
  assert (Et2 : tries s2 = t') by (unfold t'; destruct (block_size a <? kn); lia).
  assert (SB' : said e true ([] ++ es1) 1%Z s s2) by (eapply said_before; [exact Q1|exact SB]). clear SB.
  assert (Em : (if block_size a <? kn then (3 + 3 * per_context v)%nat else (3 + 2 * per_context v)%nat) = ((t' - tries s1) + 3 + 2 * per_context v)%nat) by (unfold t'; destruct (block_size a <? kn); lia).
  assert (Eg : (tries s1 <= t')%nat) by (unfold t'; destruct (block_size a <? kn); lia).
  rewrite Em. clear Em. clearbody t'. clear H1 H2. set (LB := if block_size a <? kn then _ else _) in *. pose proof (told_app _ _ _ _ _ TA TB) as TAB. 
  apply bind_inv in H as (ip & s3 & H3 & H). destruct (allocate_bytes_cases _ _ _ _ _ H3) as (Q3 & T3 & [(A3 & p3 & ->)|(A3 & ->)]).
  2:{ apply bind_inv in H as (u & s4 & H4 & H). injection H4 as <- <-. destruct (hmac_give_up _ _ _ _ _ _ _ _ _ _ _ H) as (-> & Q4 & T4). exists x1, x0, x0, false, (([] ++ es1) ++ [E_MEMORY_INSUFFICIENT]). do 3 (split; [assumption|]).
      split; [rewrite app_assoc; apply told_app; [exact TAB|]; apply told_stop; congruence|].
      split; [eapply said_after; [exact Q4|]; eapply said_trans; [exact SB'|]; eapply said_before; [exact Q3|]; apply said_one|]. cbn in T4. split; [lia|discriminate]. }
  apply bind_inv in H as (u4 & s4 & H4 & H). destruct (q_mset _ _ _ _ _ _ H4) as (Q4 & T4).
  apply bind_inv in H as (op & s5 & H5 & H). destruct (allocate_bytes_cases _ _ _ _ _ H5) as (Q5 & T5 & [(A5 & p5 & ->)|(A5 & ->)]).
  2:{ apply bind_inv in H as (u & s6 & H6 & H). injection H6 as <- <-. destruct (hmac_give_up _ _ _ _ _ _ _ _ _ _ _ H) as (-> & Q6 & T6). exists x1, x0, x0, false, (([] ++ es1) ++ [E_MEMORY_INSUFFICIENT]). do 3 (split; [assumption|]).
      split; [rewrite app_assoc; apply told_app; [exact TAB|]; apply told_go; [congruence|]; apply told_stop; rewrite <- A5; f_equal; lia|].
      split; [eapply said_after; [exact Q6|]; eapply said_trans; [exact SB'|]; eapply said_before; [|apply said_one]; congruence|]. cbn in T6. split; [lia|discriminate]. }
  apply bind_inv in H as (u6 & s6 & H6 & H). destruct (q_mset _ _ _ _ _ _ H6) as (Q6 & T6).
  apply bind_inv in H as (u7 & s7 & H7 & H). destruct (q_xor _ _ _ _ _ _ _ H7) as (Q7 & T7).
  assert (E7 : tries s7 = (t' + 2)%nat) by lia.
  assert (S7 : said e true (([] ++ es1) ++ []) 1%Z s s7) by (eapply said_trans; [exact SB'|]; apply said_nil; congruence).
  assert (T7' : told ((LA ++ LB) ++ [ Stop (alloc_ok E t' = false) [E_MEMORY_INSUFFICIENT]; Stop (alloc_ok E (t' + 1) = false) [E_MEMORY_INSUFFICIENT] ]) true (([] ++ es1) ++ [])).
  { apply told_app; [exact TAB|]. apply told_go; [congruence|]. apply told_go; [|apply told_all]. replace (t' + 1)%nat with (tries s4) by lia. congruence. }
  clear TAB SB' TA TB H3 H4 H5 H6 H7.
  apply bind_inv in H as (ri & s8 & H8 & H). destruct (pass_told _ _ _ _ _ _ _ _ _ _ _ _ _ H8) as (x2 & y2 & es2 & X2 & TD & SD & LD & QD & RD). rewrite E7 in TD, LD.
  destruct y2.
  2:{ destruct ri as [c|]; [|now elim (RD eq_refl)]. destruct (hmac_give_up _ _ _ _ _ _ _ _ _ _ _ H) as (-> & Q9 & T9). exists x1, x2, x0, false, ((([] ++ es1) ++ []) ++ es2). do 3 (split; [assumption|]).
      split; [rewrite (app_assoc LA), (app_assoc (LA ++ _)); apply told_app; [exact T7'|]; apply told_app_stop; exact TD|].
      split; [eapply said_after; [exact Q9|]; eapply said_trans; [exact S7|exact SD]|]. split; [lia|discriminate]. }
  destruct (QD eq_refl) as (-> & T8). clear QD RD LD. rewrite E7 in T8.
  pose proof (told_app _ _ _ _ _ T7' TD) as T8'. assert (S8 : said e true ((([] ++ es1) ++ []) ++ es2) 1%Z s s8) by (eapply said_trans; [exact S7|exact SD]). clear T7' TD S7 SD.
  apply bind_inv in H as (ro & s9 & H9 & H). destruct (pass_told _ _ _ _ _ _ _ _ _ _ _ _ _ H9) as (x3 & y3 & es3 & X3 & TE & SE & LE & QE & RE). rewrite T8 in TE, LE.
  destruct y3.
  2:{ destruct ro as [c|]; [|now elim (RE eq_refl)]. destruct (hmac_give_up _ _ _ _ _ _ _ _ _ _ _ H) as (-> & Q9 & T9). exists x1, x2, x3, false, (((([] ++ es1) ++ []) ++ es2) ++ es3). do 3 (split; [assumption|]).
      split; [eapply told_eq; [|exact (told_app _ _ _ _ _ T8' TE)]; now rewrite <- !app_assoc|].
      split; [eapply said_after; [exact Q9|]; eapply said_trans; [exact S8|exact SE]|]. split; [lia|discriminate]. }
  destruct (QE eq_refl) as (-> & T9). clear QE RE LE.
  exists x1, x2, x3, true, (((([] ++ es1) ++ []) ++ es2) ++ es3). do 3 (split; [assumption|]).
  split; [eapply told_eq; [|exact (told_app _ _ _ _ _ T8' TE)]; now rewrite <- !app_assoc|].
  repeat match type of H with bind (mset _ _ _) _ _ = _ => let Q := fresh "Q" in let T := fresh "T" in let u := fresh "u" in let s1 := fresh "s" in let H1 := fresh "H" in
      apply bind_inv in H as (u & s1 & H1 & H); destruct (q_mset _ _ _ _ _ _ H1) as (Q & T); clear H1
    | bind (mfree _) _ _ = _ => let Q := fresh "Q" in let T := fresh "T" in let u := fresh "u" in let s1 := fresh "s" in let H1 := fresh "H" in
      apply bind_inv in H as (u & s1 & H1 & H); destruct (q_free _ _ _ _ H1) as (Q & T); clear H1 end.
  injection H as <- <-. split; [eapply said_trans; [exact S8|]; eapply said_after; [|exact SE]; congruence|]. split; lia.
Qed.
