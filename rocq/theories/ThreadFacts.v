(* Lemmas for Threads.v *)
From Coq Require Import Arith NArith ZArith List Lia Bool.
From Verif Require Import Words Spec Machine Vocab Context Threads MachineFacts.
Import ListNotations.
Open Scope N_scope.

(* ------------------------------------------------------- what an access depends on and changes *)

Definition agree (F : list nat) (s t : state) : Prop :=
  (forall q, In q F -> nth_error (mem s) q = nth_error (mem t) q) /\ errs s = errs t /\ resid s = resid t.
Definition same_but (W : list nat) (s s' : state) : Prop :=
  length (mem s') = length (mem s) /\ tries s' = tries s /\ forall q, ~ In q W -> nth_error (mem s') q = nth_error (mem s) q.
Definition local (W F : list nat) {A} (m : M A) : Prop := forall s t, agree F s t ->
  match m s, m t with
  | Done x s', Done y t' => x = y /\ agree F s' t' /\ same_but W s s' /\ same_but W t t'
  | Undef, Undef => True
  | _, _ => False
  end.

Lemma same_but_refl : forall W s, same_but W s s.
Proof. intros W s. split; [reflexivity|]. split; [reflexivity|]. reflexivity. Qed.
Lemma same_but_trans : forall W s t u, same_but W s t -> same_but W t u -> same_but W s u.
Proof. intros W s t u (A & B & C) (A' & B' & C'). split; [congruence|]. split; [congruence|]. intros q Q. rewrite C', C; auto. Qed.
Lemma agree_get : forall F s t p, agree F s t -> In p F -> get_obj s p = get_obj t p.
Proof. intros F s t p (H & _) I. unfold get_obj. now rewrite (H p I). Qed.

Section Local.
  Variables W F : list nat.
  Hypothesis WF : incl W F.

  Lemma local_pure : forall A (m : M A) (f : state -> option A), (forall s, m s = match f s with Some a => Done a s | None => Undef end) ->
    (forall s t, agree F s t -> f s = f t) -> local W F m.
  Proof.
    intros A m f Hm Hf s t H. rewrite !Hm, (Hf s t H). destruct (f t); [|exact I]. split; [reflexivity|]. split; [exact H|].
    split; apply same_but_refl.
  Qed.
  Lemma local_ret : forall A (a : A), local W F (ret a).
  Proof. intros A a. apply (local_pure _ _ (fun _ => Some a)); reflexivity. Qed.
  Lemma local_lift : forall A (o : option A), local W F (lift o).
  Proof. intros A o. apply (local_pure _ _ (fun _ => o)); [|reflexivity]. intros s. now destruct o. Qed.
  Lemma local_bind : forall A B (m : M A) (f : A -> M B), local W F m -> (forall a, local W F (f a)) -> local W F (bind m f).
  Proof.
    intros A B m f Hm Hf s t H. unfold bind. specialize (Hm s t H). destruct (m s) as [x s'|], (m t) as [y t'|]; try contradiction; [|exact I].
    destruct Hm as (<- & H' & S1 & T1). specialize (Hf x s' t' H'). destruct (f x s') as [u s''|], (f x t') as [v t''|]; try contradiction; [|exact I].
    destruct Hf as (<- & H'' & S2 & T2). split; [reflexivity|]. split; [exact H''|]. split; eapply same_but_trans; eassumption.
  Qed.
  Lemma local_load : forall a p, In p F -> local W F (load_ctx a p).
  Proof.
    intros a p I. apply (local_pure _ _ (fun s => match get_obj s p with Some (OCtx a' c) => if algid_eqb a a' then Some c else None | _ => None end)).
    - intros s. unfold load_ctx. destruct (get_obj s p) as [[l|a' c|q]|]; try reflexivity. now destruct (algid_eqb a a').
    - intros s t H. now rewrite (agree_get F s t p H I).
  Qed.
  Lemma local_view : forall p, In (fst p) F -> local W F (view p).
  Proof.
    intros p I. apply (local_pure _ _ (fun s => match get_obj s (fst p) with Some (OBytes l) => if snd p <=? N.of_nat (length l) then Some (skipn (N.to_nat (snd p)) l) else None | _ => None end)).
    - intros s. unfold view. destruct (get_obj s (fst p)) as [[l|a' c|q]|]; try reflexivity. now destruct (snd p <=? N.of_nat (length l)).
    - intros s t H. now rewrite (agree_get F s t _ H I).
  Qed.
  Lemma local_put : forall p o s t, In p W -> agree F s t -> get_obj s p <> None ->
    agree F (set_obj p o s) (set_obj p o t) /\ same_but W s (set_obj p o s) /\ same_but W t (set_obj p o t).
  Proof.
    intros p o s t I H G. assert (Q : nth_error (mem s) p = nth_error (mem t) p) by (apply H; auto).
    assert (C : forall u, nth_error (mem u) p = nth_error (mem s) p -> same_but W u (set_obj p o u)).
    { intros u Qu. split; [apply set_obj_length|]. split; [apply set_obj_tries|]. intros q Nq. unfold set_obj. destruct (nth_error (mem u) p); [|reflexivity].
      cbn [mem set_mem]. apply replace_other. intros ->. auto. }
    split; [|split; apply C; auto]. destruct H as (H & He & Hr). split; [|now rewrite !set_obj_errs, !set_obj_resid].
    intros q Hq. unfold set_obj. rewrite <- Q. destruct (nth_error (mem s) p) as [c|] eqn:Hc; [|now apply H]. cbn [mem set_mem].
    destruct (Nat.eq_dec p q) as [<-|Ne]; [|rewrite !replace_other by assumption; now apply H].
    rewrite !replace_same; [reflexivity| |]; apply nth_error_Some; congruence.
  Qed.
  Lemma local_store : forall a p c, In p W -> local W F (store_ctx a p c).
  Proof.
    intros a p c I s t H. unfold store_ctx. pose proof (agree_get F s t p H (WF p I)) as Q. rewrite <- Q.
    destruct (get_obj s p) as [[l|a' c'|q]|] eqn:G; try exact Logic.I. destruct (algid_eqb a a'); [|exact Logic.I].
    rewrite (put_obj_ok s p _ _ G), (put_obj_ok t p _ (OCtx a c) (eq_sym Q)). split; [reflexivity|]. apply local_put; auto. congruence.
  Qed.
  Lemma local_write : forall p d, In (fst p) W -> local W F (write p d).
  Proof.
    intros p d I s t H. unfold write. pose proof (agree_get F s t (fst p) H (WF _ I)) as Q. rewrite <- Q.
    destruct (get_obj s (fst p)) as [[l|a' c'|q]|] eqn:G; try exact Logic.I. destruct (splice l (snd p) d) as [l'|]; [|exact Logic.I].
    rewrite (put_obj_ok s _ _ _ G), (put_obj_ok t _ _ (OBytes l') (eq_sym Q)). split; [reflexivity|]. apply local_put; auto. congruence.
  Qed.
  Lemma local_error : forall e k, local W F (error_set e k).
  Proof.
    intros e k s t (H & He & Hr). cbn. split; [reflexivity|]. split; [split; [exact H|split; [cbn; now rewrite He|exact Hr]]|].
    split; (split; [reflexivity|split; reflexivity]).
  Qed.
  Lemma local_fail : forall e k, local W F (fail e k).
  Proof. intros e k. apply local_bind; [apply local_error|intros; apply local_ret]. Qed.
  Lemma local_log : forall f, local W F (log_frame f).
  Proof.
    intros f s t (H & He & Hr). cbn. split; [reflexivity|]. split; [split; [exact H|split; [exact He|cbn; now rewrite Hr]]|].
    split; (split; [reflexivity|split; reflexivity]).
  Qed.
  Lemma local_call : local W F (fun s => Done (length (resid s)) s).
  Proof. apply (local_pure _ _ (fun s => Some (length (resid s)))); [reflexivity|]. intros s t (_ & _ & H). now rewrite H. Qed.
  Lemma local_mfold : forall A B (f : A -> B -> M A) l a, (forall a b, local W F (f a b)) -> local W F (mfold f l a).
  Proof. intros A B f l. induction l as [|b l IH]; intros a H; cbn [mfold]; [apply local_ret|]. apply local_bind; auto. Qed.

  Ltac loc := repeat first [apply local_ret|apply local_lift|apply local_fail|apply local_error|apply local_log|apply local_call|
    apply local_load; solve [auto]|apply local_store; solve [auto]|apply local_view; solve [auto]|apply local_write; solve [auto]|
    apply local_bind; [|intros ?]|apply local_mfold; intros].

  Variable E : env.
  Lemma local_transform : forall a p b n e, In p W -> local W F (transform E a (Some p) b n e).
  Proof.
    intros a p b n e I. assert (I' : In p F) by auto. unfold transform. destruct b as [b|]; [|loc]. destruct (ssize_max E <? n); [loc|].
    apply local_bind; [loc|intros c]. apply local_bind; [apply local_call|intros call]. apply local_bind; [loc|intros [[[off h] hv] v]]. loc.
  Qed.
  Lemma local_digest : forall a p h, In p W -> In (fst h) W -> local W F (store_digest E a p h).
  Proof. intros a p h I J. assert (I' : In p F) by auto. unfold store_digest. destruct (unrolled E); loc. Qed.
  Lemma local_finalize : forall a p h n e, In p W -> (forall hp, h = Some hp -> In (fst hp) W) -> local W F (context_finalize E a (Some p) h n e).
  Proof.
    intros a p h n e I J. assert (I' : In p F) by auto. unfold context_finalize. destruct h as [hp|]; [|loc]. specialize (J hp eq_refl).
    destruct (final_checks E (alg_of a) (a_checks (alg_of a)) n); [loc|]. loc.
    - now apply local_transform.
    - destruct (_ =? _)%Z; [loc|]. loc. now apply local_digest.
  Qed.

  (* ------------------------------------------------------- calls *)

  Fixpoint plocal {A} (m : proc A) : Prop :=
    match m with
    | Return _ => True
    | Do act k => local W F act /\ forall b, plocal (k b)
    end.
  Lemma PL_return : forall A (a : A), plocal (Return a).
  Proof. intros. exact I. Qed.
  Lemma PL_do : forall A B (act : M B) (k : B -> proc A), local W F act -> (forall b, plocal (k b)) -> plocal (Do act k).
  Proof. intros. now split. Qed.
  Lemma plocal_andthen : forall A B (m : proc A) (f : A -> proc B), plocal m -> (forall a, plocal (f a)) -> plocal (andthen m f).
  Proof. intros A B m f H Hf. induction m as [a|C act k IH]; cbn; [apply Hf|]. destruct H as (H & Hk). split; auto. Qed.

  Lemma local_read_boff : forall a p, In p F -> local W F (read_boff a p).
  Proof. intros. unfold read_boff. loc. Qed.
  Lemma local_read_count : forall a p, In p F -> local W F (read_count a p).
  Proof. intros. unfold read_count. loc. Qed.
  Lemma local_write_boff : forall a p v, In p W -> local W F (write_boff a p v).
  Proof. intros a p v I. assert (In p F) by auto. unfold write_boff. loc. Qed.
  Lemma local_write_count : forall a p v, In p W -> local W F (write_count a p v).
  Proof. intros a p v I. assert (In p F) by auto. unfold write_count. loc. Qed.
  Lemma local_copy_in : forall a p x bp off n, In p W -> In (fst bp) F -> local W F (copy_in a p x bp off n).
  Proof. intros a p x bp off n I J. assert (In p F) by auto. unfold copy_in. loc. Qed.
  Lemma local_transform_block : forall a p e, In p W -> local W F (transform_block E a p e).
  Proof. intros a p e I. assert (In p F) by auto. unfold transform_block. apply local_bind; [loc|]. intros c. now apply local_transform. Qed.
  Lemma local_transform_buffer : forall a p bp off n e, In p W -> In (fst bp) F -> local W F (transform_buffer E a p bp off n e).
  Proof. intros a p bp off n e I J. unfold transform_buffer. apply local_bind; [loc|]. intros c. now apply local_transform. Qed.
  Ltac ploc := repeat first [apply PL_return|apply PL_do; [first [apply local_fail|apply local_read_boff; solve [auto]|apply local_read_count; solve [auto]|
    apply local_write_boff; solve [auto]|apply local_write_count; solve [auto]|apply local_copy_in; solve [auto]|apply local_transform_block; solve [auto]|
    apply local_transform_buffer; solve [auto]]|intros ?]|match goal with |- plocal (if ?b then _ else _) => destruct b end].

  Lemma plocal_tail : forall a p bp off n e, In p W -> In (fst bp) F -> plocal (update_tail_proc E a p bp off n e).
  Proof. intros a p bp off n e I J. assert (In p F) by auto. unfold update_tail_proc. ploc. Qed.
  Lemma plocal_update : forall a p b n e, In p W -> (forall bp, b = Some bp -> In (fst bp) F) -> plocal (update_proc E a (Some p) b n e).
  Proof.
    intros a p b n e I J. assert (In p F) by auto. unfold update_proc. destruct b as [bp|]; [|ploc]. specialize (J bp eq_refl). ploc; now apply plocal_tail.
  Qed.
  Definition call_within (x : tcall) : Prop :=
    match x with
    | TUpdate (Some bp) _ => In (fst bp) F
    | TFinalize (Some hp) _ => In (fst hp) W
    | _ => True
    end.
  Lemma plocal_calls : forall a p l r, In p W -> Forall call_within l -> plocal (calls_proc E a p l r).
  Proof.
    intros a p l r I H. revert r. induction H as [|x l Hx Hl IH]; intros r; cbn [calls_proc]; [exact Logic.I|]. apply plocal_andthen; [|auto].
    destruct x as [[bp|] n|[hp|] n]; cbn in Hx; cbn [call_proc].
    - apply plocal_update; [exact I|]. now intros ? [= <-].
    - apply plocal_update; [exact I|]. discriminate.
    - unfold finalize_proc. apply PL_do; [|intros; exact Logic.I]. apply local_finalize; [exact I|]. now intros ? [= <-].
    - unfold finalize_proc. apply PL_do; [|intros; exact Logic.I]. apply local_finalize; [exact I|]. discriminate.
  Qed.
End Local.

(* ------------------------------------------------------- alone, the accesses make up the call *)

Lemma same_get : forall W s s' q, same_but W s s' -> ~ In q W -> get_obj s' q = get_obj s q.
Proof. intros W s s' q (_ & _ & H) N. unfold get_obj. now rewrite (H q N). Qed.
Lemma local_same : forall W F A (m : M A) s a s', local W F m -> m s = Done a s' -> same_but W s s'.
Proof.
  intros W F A m s a s' H R. assert (G : agree F s s) by (split; auto). specialize (H s s G). rewrite R in H. now destruct H as (_ & _ & H & _).
Qed.
Lemma load_cases : forall a p s, (exists c, get_obj s p = Some (OCtx a c)) \/ load_ctx a p s = Undef.
Proof.
  intros a p s. unfold load_ctx. destruct (get_obj s p) as [[l|b c|q]|]; auto. destruct (algid_eqb a b) eqn:Q; [|auto].
  apply algid_eqb_eq in Q. subst b. left. now exists c.
Qed.
Lemma load_undef : forall a p s A (f : ctx -> M A), load_ctx a p s = Undef -> (c <- load_ctx a p ;; f c) s = Undef.
Proof. intros a p s A f H. unfold bind. now rewrite H. Qed.

Section Alone.
  Variable E : env.
  Lemma read_boff_ok : forall a p c s, get_obj s p = Some (OCtx a c) -> read_boff a p s = Done (c_boff c) s.
  Proof. intros a p c s H. unfold read_boff. erewrite bind_done by (eapply load_ctx_ok; eassumption). reflexivity. Qed.
  Lemma read_count_ok : forall a p c s, get_obj s p = Some (OCtx a c) -> read_count a p s = Done (c_count c) s.
  Proof. intros a p c s H. unfold read_count. erewrite bind_done by (eapply load_ctx_ok; eassumption). reflexivity. Qed.
  Lemma write_boff_ok : forall a p c v s, get_obj s p = Some (OCtx a c) ->
    write_boff a p v s = Done tt (set_obj p (OCtx a (mk_ctx (c_count c) (c_hash c) v (c_block c))) s).
  Proof. intros a p c v s H. unfold write_boff. erewrite bind_done by (eapply load_ctx_ok; eassumption). eapply store_ctx_ok. exact H. Qed.
  Lemma write_count_ok : forall a p c v s, get_obj s p = Some (OCtx a c) ->
    write_count a p v s = Done tt (set_obj p (OCtx a (mk_ctx v (c_hash c) (c_boff c) (c_block c))) s).
  Proof. intros a p c v s H. unfold write_count. erewrite bind_done by (eapply load_ctx_ok; eassumption). eapply store_ctx_ok. exact H. Qed.
  Lemma copy_in_ok : forall a p c x bp l off n d block s, get_obj s p = Some (OCtx a c) -> get_obj s (fst bp) = Some (OBytes l) -> snd bp <= N.of_nat (length l) ->
    take n (skipn (N.to_nat off) (skipn (N.to_nat (snd bp)) l)) = Some d -> splice (c_block c) x d = Some block ->
    copy_in a p x bp off n s = Done tt (set_obj p (OCtx a (mk_ctx (c_count c) (c_hash c) (c_boff c) block)) s).
  Proof.
    intros a p c x bp l off n d block s H V L T B. unfold copy_in. erewrite bind_done by (eapply load_ctx_ok; eassumption). erewrite bind_done by (apply view_ok; eassumption).
    rewrite T. cbn [lift]. rewrite bind_ret, B. cbn [lift]. rewrite bind_ret. eapply store_ctx_ok. exact H.
  Qed.

  Definition rest_seq (a : algid) (p : nat) (buf : list N) (buffer_offset size : N) (e : bool) : M Z :=
    if 0 <? size then
      if a_bs (alg_of a) <=? size then fail e E_RUNTIME_VALUE_OUT_OF_BOUNDS
      else
        c <- load_ctx a p ;;
        d <- lift (take size (skipn (N.to_nat buffer_offset) buf)) ;;
        block <- lift (splice (c_block c) 0 d) ;;
        store_ctx a p (mk_ctx (c_count c) (c_hash c) size block) ;;;
        ret 1%Z
    else ret 1%Z.
  Definition rest_proc (a : algid) (p : nat) (bp : ptr) (buffer_offset size : N) (e : bool) : proc Z :=
    if 0 <? size then
      if a_bs (alg_of a) <=? size then Do (fail e E_RUNTIME_VALUE_OUT_OF_BOUNDS) Return
      else
        Do (copy_in a p 0 bp buffer_offset size) (fun _ =>
        Do (write_boff a p size) (fun _ =>
        Return 1%Z))
    else Return 1%Z.
  Lemma bind_ret_r : forall A (m : M A) s, bind m ret s = m s.
  Proof. intros A m s. unfold bind. now destruct (m s). Qed.
  Lemma fail_proc : forall e k s, run_proc (Do (fail e k) Return) s = fail e k s.
  Proof. intros e k s. reflexivity. Qed.
  Lemma rest_alone : forall a p bp l off n e s, get_obj s (fst bp) = Some (OBytes l) -> snd bp <= N.of_nat (length l) -> fst bp <> p ->
    run_proc (rest_proc a p bp off n e) s = rest_seq a p (skipn (N.to_nat (snd bp)) l) off n e s.
  Proof.
    intros a p bp l off n e s V L Ne. unfold rest_proc, rest_seq. destruct (0 <? n); [|reflexivity]. destruct (a_bs (alg_of a) <=? n); [reflexivity|].
    cbn [run_proc]. destruct (load_cases a p s) as [(c & Hc)|U].
    2:{ unfold bind, copy_in, bind. now rewrite U. }
    erewrite (bind_done _ _ (load_ctx a p)) by (eapply load_ctx_ok; eassumption).
    destruct (take n (skipn (N.to_nat off) (skipn (N.to_nat (snd bp)) l))) as [d|] eqn:T.
    2:{ unfold copy_in, bind. rewrite (load_ctx_ok a p c s Hc), (view_ok s bp l V L), T. reflexivity. }
    cbn [lift]. rewrite bind_ret. destruct (splice (c_block c) 0 d) as [b|] eqn:B.
    2:{ unfold copy_in, bind. rewrite (load_ctx_ok a p c s Hc), (view_ok s bp l V L), T. cbn [lift ret]. rewrite B. reflexivity. }
    cbn [lift]. rewrite bind_ret. erewrite bind_done by (eapply copy_in_ok; eassumption). cbv beta.
    erewrite bind_done by (eapply write_boff_ok, get_set_same; exact Hc). cbn [c_count c_hash c_block c_boff]. rewrite set_set.
    erewrite bind_done by (eapply store_ctx_ok; exact Hc). reflexivity.
  Qed.
  Lemma tail_alone : forall a p bp l off n e s, get_obj s (fst bp) = Some (OBytes l) -> snd bp <= N.of_nat (length l) -> fst bp <> p ->
    run_proc (update_tail_proc E a p bp off n e) s = update_tail E a p (skipn (N.to_nat (snd bp)) l) off n e s.
  Proof.
    intros a p bp l off n e s V L Ne. unfold update_tail_proc, update_tail. cbv zeta. destruct (0 <? n) eqn:Z; [|rewrite bind_ret, Z; reflexivity].
    cbn [run_proc]. rewrite bind_assoc. unfold transform_buffer. rewrite bind_assoc. erewrite (bind_done _ _ (view bp)) by (apply view_ok; eassumption).
    destruct (transform E a (Some p) (Some (skipn (N.to_nat off) (skipn (N.to_nat (snd bp)) l))) n e s) as [z s2|] eqn:T.
    2:{ unfold bind. now rewrite T. }
    do 2 (erewrite bind_done by exact T). destruct (z =? -1)%Z; [reflexivity|]. cbn [run_proc].
    assert (V2 : get_obj s2 (fst bp) = Some (OBytes l)).
    { rewrite (same_get [p] s s2 (fst bp)); [exact V| |cbn; intuition]. eapply (local_same [p] [p]); [|exact T]. apply local_transform; [apply incl_refl|now left]. }
    rewrite bind_assoc. destruct (load_cases a p s2) as [(c & Hc)|U].
    2:{ unfold bind, read_count, bind. now rewrite U. }
    erewrite bind_done by (eapply read_count_ok; exact Hc). erewrite bind_done by (eapply write_count_ok; exact Hc).
    erewrite (bind_done _ _ (load_ctx a p)) by (eapply load_ctx_ok; eassumption). rewrite bind_assoc. erewrite (bind_done _ _ (store_ctx _ _ _)) by (eapply store_ctx_ok; exact Hc).
    rewrite bind_ret. apply rest_alone; auto. now rewrite get_set_other by auto.
  Qed.
  Lemma bs_small : forall a, 0 < a_bs (alg_of a) <= 128.
  Proof. intros []; cbn; lia. Qed.
  Lemma mod_big : 2 ^ 32 <= size_mod E.
  Proof. unfold size_mod. destruct (plat64 E); vm_compute; discriminate. Qed.

  Lemma update_alone : forall a p b n e s, arg s b n -> run_proc (update_proc E a p b n e) s = context_update E a p b n e s.
  Proof.
    intros a p b n e s HB. unfold update_proc, context_update. destruct p as [p|]; [|reflexivity]. destruct b as [bp|]; [|reflexivity].
    destruct (ssize_max E <? n); [reflexivity|]. destruct (n =? 0); [reflexivity|]. destruct HB as (l & V & L).
    assert (L' : snd bp <= N.of_nat (length l)) by lia. clear L. rename L' into L. cbn [run_proc].
    destruct (load_cases a p s) as [(c & Hc)|U].
    2:{ unfold bind, read_boff, bind. now rewrite U. }
    assert (Ne : fst bp <> p) by congruence.
    erewrite bind_done by (eapply read_boff_ok; exact Hc). erewrite (bind_done _ _ (load_ctx a p)) by (eapply load_ctx_ok; eassumption).
    erewrite (bind_done _ _ (view bp)) by (apply view_ok; eassumption). cbv beta.
    destruct (0 <? c_boff c); [|now apply tail_alone]. cbn [run_proc].
    erewrite bind_done by (eapply read_boff_ok; exact Hc). destruct (N.leb_spec (a_bs (alg_of a)) (c_boff c)) as [_|B]; [reflexivity|]. cbn [run_proc].
    pose proof (bs_small a) as BS. pose proof mod_big as MB. assert (P32 : 2 ^ 32 = 4294967296) by reflexivity.
    erewrite bind_done by (eapply read_boff_ok; exact Hc). erewrite bind_done by (eapply read_boff_ok; exact Hc).
    assert (R : usub (size_mod E) (a_bs (alg_of a)) (c_boff c) = a_bs (alg_of a) - c_boff c).
    { unfold usub. replace (a_bs (alg_of a) + (size_mod E - c_boff c)) with ((a_bs (alg_of a) - c_boff c) + 1 * size_mod E) by lia.
      rewrite N.mod_add by lia. apply N.mod_small. lia. }
    rewrite R. set (rm := if n <? a_bs (alg_of a) - c_boff c then n else a_bs (alg_of a) - c_boff c).
    assert (Rm : c_boff c + rm <= a_bs (alg_of a)) by (unfold rm; destruct (N.ltb_spec n (a_bs (alg_of a) - c_boff c)); lia).
    destruct (take rm (skipn (N.to_nat (snd bp)) l)) as [d|] eqn:T.
    2:{ unfold copy_in, bind. rewrite (load_ctx_ok a p c s Hc), (view_ok s bp l V L). cbn [N.to_nat skipn]. rewrite T. reflexivity. }
    cbn [lift]. rewrite bind_ret. destruct (splice (c_block c) (c_boff c) d) as [b|] eqn:Bl.
    2:{ unfold copy_in, bind. rewrite (load_ctx_ok a p c s Hc), (view_ok s bp l V L). cbn [N.to_nat skipn]. rewrite T. cbn [lift ret]. rewrite Bl. reflexivity. }
    cbn [lift]. rewrite bind_ret.
    erewrite bind_done by (eapply copy_in_ok; [exact Hc|exact V|exact L|exact T|exact Bl]). cbv beta.
    erewrite bind_done by (eapply read_boff_ok, get_set_same; exact Hc).
    erewrite bind_done by (eapply write_boff_ok, get_set_same; exact Hc). cbn [c_count c_hash c_block c_boff]. rewrite set_set.
    rewrite (N.mod_small (c_boff c + rm)) by lia.
    erewrite bind_done by (eapply read_boff_ok, get_set_same; exact Hc). cbn [c_boff].
    erewrite (bind_done _ _ (store_ctx _ _ _)) by (eapply store_ctx_ok; exact Hc). cbv beta.
    destruct (c_boff c + rm <? a_bs (alg_of a)); [reflexivity|]. cbn [run_proc].
    set (s1 := set_obj p _ s). assert (H1 : get_obj s1 p = Some (OCtx a (mk_ctx (c_count c) (c_hash c) (c_boff c + rm) b))) by (eapply get_set_same; exact Hc).
    assert (V1 : get_obj s1 (fst bp) = Some (OBytes l)) by (unfold s1; now rewrite get_set_other by auto). clearbody s1.
    unfold transform_block. rewrite bind_assoc. erewrite (bind_done _ _ (load_ctx a p)) by (eapply load_ctx_ok; eassumption). cbn [c_block].
    destruct (transform E a (Some p) (Some b) (a_bs (alg_of a)) e s1) as [z s2|] eqn:Tr.
    2:{ unfold bind. now rewrite Tr. }
    do 2 (erewrite bind_done by exact Tr). destruct (z =? -1)%Z; [reflexivity|]. cbn [run_proc].
    assert (V2 : get_obj s2 (fst bp) = Some (OBytes l)).
    { rewrite (same_get [p] s1 s2 (fst bp)); [exact V1| |cbn; intuition]. eapply (local_same [p] [p]); [|exact Tr]. apply local_transform; [apply incl_refl|now left]. }
    destruct (load_cases a p s2) as [(c2 & Hc2)|U].
    2:{ unfold bind, read_count, bind. now rewrite U. }
    erewrite bind_done by (eapply read_count_ok; exact Hc2). erewrite bind_done by (eapply write_count_ok; exact Hc2).
    erewrite bind_done by (eapply write_boff_ok, get_set_same; exact Hc2). cbn [c_count c_hash c_block c_boff]. rewrite set_set.
    erewrite (bind_done _ _ (load_ctx a p)) by (eapply load_ctx_ok; eassumption). erewrite (bind_done _ _ (store_ctx _ _ _)) by (eapply store_ctx_ok; exact Hc2).
    apply tail_alone; auto. now rewrite get_set_other by auto.
  Qed.
End Alone.

(* ------------------------------------------------------- threads with places of their own *)

(* n accesses of a thread without others *)
Fixpoint alone {A} (n : nat) (m : proc A) (s : state) : option (proc A * state) :=
  match n with
  | O => Some (m, s)
  | S n => match m with
           | Return _ => Some (m, s)
           | Do act k => match act s with Done b s' => alone n (k b) s' | Undef => None end
           end
  end.
Lemma alone_next : forall A n (m : proc A) s m' s', alone n m s = Some (m', s') ->
  alone (S n) m s = match m' with
                    | Return _ => Some (m', s')
                    | Do act k => match act s' with Done b s'' => Some (k b, s'') | Undef => None end
                    end.
Proof.
  intros A n. induction n as [|n IH]; intros m s m' s' H.
  - cbn in H. injection H as <- <-. cbn. destruct m; [reflexivity|]. destruct (act s); reflexivity.
  - cbn [alone] in H. destruct m as [a|B act k].
    + injection H as <- <-. reflexivity.
    + change (alone (S (S n)) (Do act k) s) with (match act s with Done b s' => alone (S n) (k b) s' | Undef => None end).
      destruct (act s) as [b s1|]; [|discriminate]. now apply IH.
Qed.
Lemma alone_ends : forall A (m : proc A) s r s', run_proc m s = Done r s' ->
  exists n, (forall k, (n <= k)%nat -> alone k m s = Some (Return r, s')) /\ (forall k, alone k m s <> None).
Proof.
  intros A m. induction m as [a|B act k IH]; intros s r s' H.
  - cbn in H. injection H as <- <-. exists 0%nat. split; intros [|j]; cbn; (reflexivity || discriminate).
  - cbn [run_proc] in H. unfold bind in H. destruct (act s) as [b s1|] eqn:Q; [|discriminate]. destruct (IH b s1 r s' H) as (n & N1 & N2).
    exists (S n). split; intros [|j]; cbn [alone]; try lia; try discriminate; rewrite Q; [|apply N2]. intros L. apply N1. lia.
Qed.

Section Pool.
  Context {A : Type}.
  Variables (Wr Fp : nat -> list nat) (s0 : state) (ms : list (proc A)).
  Hypothesis Wr_Fp : forall i, incl (Wr i) (Fp i).
  Hypothesis apart : forall i j q, (i < length ms)%nat -> (j < length ms)%nat -> i <> j -> In q (Wr i) -> ~ In q (Fp j).
  Hypothesis defined : forall i m k, nth_error ms i = Some m -> alone k m s0 <> None.

  Definition seen_by (P : pool A) (t : thread A) : state := mk_state (shared P) (p_tries P) (t_errs t) (t_resid t).
  Record together (n : nat -> nat) (P : pool A) : Prop := {
    g_length : length (threads P) = length ms;
    g_thread : forall i m t, nth_error ms i = Some m -> nth_error (threads P) i = Some t ->
      exists st, alone (n i) m s0 = Some (todo t, st) /\ agree (Fp i) (seen_by P t) st /\ plocal (Wr i) (Fp i) (todo t);
    g_tries : p_tries P = tries s0;
    g_size : length (shared P) = length (mem s0);
    g_rest : forall q, (forall i, (i < length ms)%nat -> ~ In q (Wr i)) -> nth_error (shared P) q = nth_error (mem s0) q;
  }.
  Definition bump (n : nat -> nat) (i : nat) (j : nat) : nat := if Nat.eq_dec i j then S (n j) else n j.

  Lemma together_step : forall n P i, together n P -> exists P', pool_step i P = Some P' /\ together (bump n i) P'.
  Proof.
    intros n P i G. unfold pool_step. destruct (nth_error (threads P) i) as [t|] eqn:Ht.
    2:{ exists P. split; [reflexivity|]. destruct G as [G1 G2 G3 G4 G5]. constructor; auto. intros j m u Hj Hu. destruct (G2 j m u Hj Hu) as (st & X). exists st.
        unfold bump. destruct (Nat.eq_dec i j) as [->|]; [congruence|exact X]. }
    destruct (nth_error ms i) as [m|] eqn:Hm.
    2:{ apply nth_error_None in Hm. assert (i < length (threads P))%nat by (apply nth_error_Some; congruence). rewrite (g_length _ _ G) in H. lia. }
    destruct (g_thread _ _ G i m t Hm Ht) as (st & Al & Ag & Pl). pose proof (alone_next _ _ _ _ _ _ Al) as Nx.
    destruct (todo t) as [a|B act k] eqn:Td.
    - exists P. split; [reflexivity|]. destruct G as [G1 G2 G3 G4 G5]. constructor; auto. intros j m' u Hj Hu. unfold bump. destruct (Nat.eq_dec i j) as [<-|].
      + assert (m' = m) by congruence. assert (u = t) by congruence. subst m' u. exists st. rewrite Td. split; [exact Nx|]. auto.
      + exact (G2 j m' u Hj Hu).
    - destruct Pl as (La & Lk). specialize (La _ _ Ag). fold (seen_by P t).
      destruct (act st) as [b st'|] eqn:Ast; [|elim (defined i m (S (n i)) Hm Nx)].
      destruct (act (seen_by P t)) as [b' s'|]; [|contradiction]. destruct La as (-> & Ag' & (S1 & S2 & S3) & _).
      eexists. split; [reflexivity|]. destruct G as [G1 G2 G3 G4 G5].
      assert (Li : (i < length (threads P))%nat) by (apply nth_error_Some; congruence).
      constructor; cbn [threads shared p_tries].
      + now rewrite replace_length.
      + intros j m' u Hj Hu. unfold bump. destruct (Nat.eq_dec i j) as [<-|Ne].
        * rewrite replace_same in Hu by exact Li. injection Hu as <-. assert (m' = m) by congruence. subst m'. exists st'. cbn [todo].
          split; [exact Nx|]. split; [|apply Lk]. exact Ag'.
        * rewrite replace_other in Hu by exact Ne. destruct (G2 j m' u Hj Hu) as (st2 & Y1 & (Y2 & Y3 & Y4) & Y5). exists st2. split; [exact Y1|]. split; [|exact Y5].
          split; [|split; [exact Y3|exact Y4]]. intros q Hq. cbn [seen_by mem shared]. rewrite <- (Y2 q Hq). cbn [seen_by mem]. apply S3. intros Q.
          assert (Lj : (j < length ms)%nat) by (apply nth_error_Some; congruence). rewrite G1 in Li. exact (apart i j q Li Lj Ne Q Hq).
      + rewrite S2. exact G3.
      + rewrite S1. exact G4.
      + intros q Hq. rewrite <- (G5 q Hq). apply S3. apply Hq. now rewrite <- G1.
  Qed.
  Lemma together_run : forall l n P, together n P -> exists P', pool_run l P = Some P' /\ together (fun i => n i + count_occ Nat.eq_dec l i)%nat P'.
  Proof.
    intros l. induction l as [|i l IH]; intros n P G; cbn [pool_run].
    - exists P. split; [reflexivity|]. destruct G as [G1 G2 G3 G4 G5]. constructor; auto. intros j m t Hj Ht. cbn [count_occ]. rewrite Nat.add_0_r. now apply G2.
    - destruct (together_step n P i G) as (P1 & -> & G1). destruct (IH _ _ G1) as (P2 & R & [H1 H2 H3 H4 H5]). exists P2. split; [exact R|]. constructor; auto.
      intros j m t Hj Ht. destruct (H2 j m t Hj Ht) as (st & X & Y). exists st. split; [|exact Y]. rewrite <- X. f_equal. unfold bump. cbn [count_occ].
      destruct (Nat.eq_dec i j); lia.
  Qed.
  Hypothesis locals : forall i m, nth_error ms i = Some m -> plocal (Wr i) (Fp i) m.
  Hypothesis no_errs : errs s0 = [].
  Hypothesis no_resid : resid s0 = [].
  Lemma together_start : together (fun _ => O) (pool_start s0 ms).
  Proof.
    constructor; try reflexivity; unfold pool_start; cbn [threads shared p_tries].
    - apply map_length.
    - intros i m t Hm Ht. rewrite nth_error_map, Hm in Ht. injection Ht as <-. exists s0. cbn [alone todo]. split; [reflexivity|]. split; [|now apply locals].
      split; [reflexivity|]. cbn. now rewrite no_errs, no_resid.
  Qed.
End Pool.
