(* Every program over the library keeps an invariant. *)
From Coq Require Import Arith NArith ZArith List Lia Bool.
From Verif Require Import Words Spec Tables Transform Machine Context Hash History WordFacts BlockFacts ShaFacts
  MachineFacts TransformFacts ContextFacts DigestFacts ReprFacts HashFacts HmacFacts.
Import ListNotations.
Open Scope N_scope.
Arguments alg_of : simpl never.
Arguments N.mul : simpl never.
Arguments N.add : simpl never.
Arguments N.pow : simpl never.

Definition start (a : algid) (f : bool) : list N := if f then a_iv (alg_of a) else repeat 0 (nh a).

Definition var_ok (m0 m : list cell) (a : algid) (p : option nat) (x : option (bool * list N)) : Prop :=
  match p, x with
  | None, None => True
  | Some q, Some (f, msg) =>
      (length m0 <= q)%nat /\ exists c, nth_error m q = Some (mk_cell true Heap (OCtx a c)) /\ ctx_repr a (start a f) 0 c msg
  | _, _ => False
  end.

Definition kept (c c' : cell) : Prop :=
  live c' = live c /\ knd c' = knd c /\
  match content c with
  | OBytes l => exists l', content c' = OBytes l' /\ length l' = length l
  | OCtx _ _ | OPtr _ => content c' = content c
  end.

Lemma kept_refl : forall c, kept c c.
Proof. intros c. unfold kept. destruct (content c) eqn:E; repeat split; eauto. Qed.
Lemma kept_trans : forall a b c, kept a b -> kept b c -> kept a c.
Proof.
  intros a b c (H1 & H2 & H3) (H4 & H5 & H6). repeat split; try congruence.
  destruct (content a) as [l|al x|q].
  - destruct H3 as (l' & H3 & L). rewrite H3 in H6. destruct H6 as (l'' & H6 & L'). exists l''. split; [assumption|congruence].
  - rewrite H3 in H6. congruence.
  - rewrite H3 in H6. congruence.
Qed.

Record inv (m0 m : list cell) (vs : vars) (xs : list (option (bool * list N))) : Prop := {
  i_ok : Forall cell_ok m;
  i_ge : (length m0 <= length m)%nat;
  i_old : forall p c, nth_error m0 p = Some c -> exists c', nth_error m p = Some c' /\ kept c c';
  i_len : length xs = length vs;
  i_vars : forall i a p, nth_error vs i = Some (a, p) -> exists x, nth_error xs i = Some x /\ var_ok m0 m a p x;
  i_inj : forall i j a b p, nth_error vs i = Some (a, Some p) -> nth_error vs j = Some (b, Some p) -> i = j;
  i_own : forall p c, (length m0 <= p)%nat -> nth_error m p = Some c -> live c = true ->
          exists i a, nth_error vs i = Some (a, Some p);
}.

Lemma nth_lt : forall A (l : list A) i x, nth_error l i = Some x -> (i < length l)%nat.
Proof. intros. apply nth_error_Some. congruence. Qed.

Lemma Forall_replace : forall A (P : A -> Prop) l i v, Forall P l -> P v -> Forall P (replace l i v).
Proof. intros A P l i v H Hv. revert i. induction H; intros [|i]; cbn [replace]; constructor; auto. Qed.

(* the caller's array at p gets new bytes *)
Lemma eff_bytes : forall m0 m vs xs p c l l', inv m0 m vs xs -> (p < length m0)%nat ->
  nth_error m p = Some c -> content c = OBytes l -> length l' = length l -> Forall is_byte l' ->
  inv m0 (setl p (OBytes l') m) vs xs.
Proof.
  intros m0 m vs xs p c l l' I Hp Hm Hc Hl HB. split.
  - apply setl_ok; [apply (i_ok _ _ _ _ I)|exact HB].
  - rewrite setl_length. apply (i_ge _ _ _ _ I).
  - intros q cq Hq. destruct (i_old _ _ _ _ I q cq Hq) as (c' & Hc' & K). destruct (Nat.eq_dec p q) as [<-|Hne].
    + exists (mk_cell (live c) (knd c) (OBytes l')). split; [apply setl_nth_same; assumption|].
      assert (c' = c) by congruence. subst c'. eapply kept_trans; [exact K|]. unfold kept. rewrite Hc. cbn. eauto.
    + exists c'. rewrite setl_nth_other by assumption. now split.
  - apply (i_len _ _ _ _ I).
  - intros i a q Hi. destruct (i_vars _ _ _ _ I i a q Hi) as (x & Hx & Hv). exists x. split; [assumption|].
    destruct q as [q|], x as [[f msg]|]; try exact Hv. destruct Hv as (Hge & c0 & Hc0 & R). split; [assumption|].
    exists c0. split; [|assumption]. rewrite setl_nth_other by lia. assumption.
  - apply (i_inj _ _ _ _ I).
  - intros q cq Hge Hq Hlv. apply (i_own _ _ _ _ I q cq Hge); [|assumption].
    rewrite setl_nth_other in Hq by lia. assumption.
Qed.

Lemma eff_dead : forall m0 m vs xs news, inv m0 m vs xs -> Forall (fun c => live c = false) news -> inv m0 (m ++ news) vs xs.
Proof.
  intros m0 m vs xs news I Hn. split.
  - apply Forall_app. split; [apply (i_ok _ _ _ _ I)|]. eapply Forall_impl; [|exact Hn]. intros c H Hl. congruence.
  - rewrite app_length. pose proof (i_ge _ _ _ _ I). lia.
  - intros q cq Hq. destruct (i_old _ _ _ _ I q cq Hq) as (c' & Hc' & K). exists c'. split; [|assumption].
    rewrite nth_error_app1; [assumption|]. eapply nth_lt; eassumption.
  - apply (i_len _ _ _ _ I).
  - intros i a q Hi. destruct (i_vars _ _ _ _ I i a q Hi) as (x & Hx & Hv). exists x. split; [assumption|].
    destruct q as [q|], x as [[f msg]|]; try exact Hv. destruct Hv as (Hge & c0 & Hc0 & R). split; [assumption|].
    exists c0. split; [|assumption]. rewrite nth_error_app1; [assumption|]. eapply nth_lt; eassumption.
  - apply (i_inj _ _ _ _ I).
  - intros q cq Hge Hq Hlv. destruct (Nat.lt_ge_cases q (length m)) as [Hlt|Hge'].
    + rewrite nth_error_app1 in Hq by assumption. eapply (i_own _ _ _ _ I); eassumption.
    + rewrite nth_error_app2 in Hq by assumption. apply nth_error_In in Hq. rewrite Forall_forall in Hn.
      specialize (Hn _ Hq). congruence.
Qed.

Lemma replace_nth : forall A (l : list A) i j v y, nth_error (replace l i v) j = Some y ->
  (i = j /\ y = v) \/ (i <> j /\ nth_error l j = Some y).
Proof.
  intros A l i j v y H. destruct (Nat.eq_dec i j) as [<-|Hne].
  - left. split; [reflexivity|]. pose proof (nth_lt _ _ _ _ H) as Hl. rewrite replace_length in Hl.
    rewrite replace_same in H by assumption. congruence.
  - right. rewrite replace_other in H by assumption. now split.
Qed.

Lemma eff_new : forall m0 m vs xs i a, inv m0 m vs xs -> nth_error vs i = Some (a, None) ->
  inv m0 (m ++ [mk_cell true Heap (OCtx a (init_ctx a))]) (replace vs i (a, Some (length m))) (replace xs i (Some (true, []))).
Proof.
  intros m0 m vs xs i a I Hi. pose proof (i_ge _ _ _ _ I) as Hge. split.
  - apply Forall_app. split; [apply (i_ok _ _ _ _ I)|]. apply Forall_cons; [intros _; apply init_wf|apply Forall_nil].
  - rewrite app_length. lia.
  - intros q cq Hq. destruct (i_old _ _ _ _ I q cq Hq) as (c' & Hc' & K). exists c'. split; [|assumption].
    rewrite nth_error_app1; [assumption|]. eapply nth_lt; eassumption.
  - rewrite !replace_length. apply (i_len _ _ _ _ I).
  - intros j b q Hj. apply replace_nth in Hj. destruct Hj as [(<- & Hj)|(Hne & Hj)].
    + injection Hj as -> ->. exists (Some (true, [])). split.
      * apply replace_same. rewrite (i_len _ _ _ _ I). eapply nth_lt; eassumption.
      * split; [assumption|]. exists (init_ctx a). split; [|apply init_repr].
        rewrite nth_error_app2, Nat.sub_diag by lia. reflexivity.
    + destruct (i_vars _ _ _ _ I j b q Hj) as (x & Hx & Hv). exists x. rewrite replace_other by assumption. split; [assumption|].
      destruct q as [q|], x as [[f msg]|]; try exact Hv. destruct Hv as (Hge' & c0 & Hc0 & R). split; [assumption|].
      exists c0. split; [|assumption]. rewrite nth_error_app1; [assumption|]. eapply nth_lt; eassumption.
  - intros j k b c q Hj Hk. apply replace_nth in Hj. apply replace_nth in Hk.
    assert (Hno : forall j b, nth_error vs j = Some (b, Some (length m)) -> False).
    { intros j' b' Hj'. destruct (i_vars _ _ _ _ I _ _ _ Hj') as (x & _ & Hv). destruct x as [[f msg]|]; [|exact Hv].
      destruct Hv as (_ & c0 & Hc0 & _). apply nth_lt in Hc0. lia. }
    destruct Hj as [(<- & Hj)|(Hne & Hj)], Hk as [(<- & Hk)|(Hne' & Hk)].
    + reflexivity.
    + injection Hj as -> ->. exfalso. eapply Hno; eassumption.
    + injection Hk as -> ->. exfalso. eapply Hno; eassumption.
    + eapply (i_inj _ _ _ _ I); eassumption.
  - intros q cq Hq Hc Hl. destruct (Nat.lt_ge_cases q (length m)) as [Hlt|Hge'].
    + rewrite nth_error_app1 in Hc by assumption. destruct (i_own _ _ _ _ I q cq Hq Hc Hl) as (j & b & Hj).
      exists j, b. rewrite replace_other; [assumption|]. intros <-. congruence.
    + assert (q = length m) as ->. { apply nth_lt in Hc. rewrite app_length in Hc. cbn in Hc. lia. }
      exists i, a. apply replace_same. eapply nth_lt; eassumption.
Qed.

Lemma eff_kill : forall m0 m vs xs i a p o, inv m0 m vs xs -> nth_error vs i = Some (a, Some p) ->
  nth_error m p = Some (mk_cell true Heap o) ->
  inv m0 (replace m p (mk_cell false Heap o)) (replace vs i (a, None)) (replace xs i None).
Proof.
  intros m0 m vs xs i a p o I Hi Hp.
  destruct (i_vars _ _ _ _ I _ _ _ Hi) as (x0 & Hx0 & Hv0). destruct x0 as [[f0 msg0]|]; [|contradiction].
  destruct Hv0 as (Hpge & _). pose proof (nth_lt _ _ _ _ Hp) as Hplt. split.
  - apply Forall_replace; [apply (i_ok _ _ _ _ I)|]. intros H; discriminate H.
  - rewrite replace_length. apply (i_ge _ _ _ _ I).
  - intros q cq Hq. destruct (i_old _ _ _ _ I q cq Hq) as (c' & Hc' & K). exists c'. split; [|assumption].
    rewrite replace_other; [assumption|]. apply nth_lt in Hq. lia.
  - rewrite !replace_length. apply (i_len _ _ _ _ I).
  - intros j b q Hj. apply replace_nth in Hj. destruct Hj as [(<- & Hj)|(Hne & Hj)].
    + injection Hj as -> ->. exists None. split; [|exact Logic.I].
      apply replace_same. rewrite (i_len _ _ _ _ I). eapply nth_lt; eassumption.
    + destruct (i_vars _ _ _ _ I j b q Hj) as (x & Hx & Hv). exists x. rewrite replace_other by assumption. split; [assumption|].
      destruct q as [q|], x as [[f msg]|]; try exact Hv. destruct Hv as (Hge' & c0 & Hc0 & R). split; [assumption|].
      exists c0. split; [|assumption]. rewrite replace_other; [assumption|]. intros <-.
      apply Hne. eapply (i_inj _ _ _ _ I); eassumption.
  - intros j k b c q Hj Hk. apply replace_nth in Hj. apply replace_nth in Hk.
    destruct Hj as [(<- & Hj)|(Hne & Hj)], Hk as [(<- & Hk)|(Hne' & Hk)]; try congruence.
    eapply (i_inj _ _ _ _ I); eassumption.
  - intros q cq Hq Hc Hl. apply replace_nth in Hc. destruct Hc as [(<- & ->)|(Hne & Hc)]; [discriminate|].
    destruct (i_own _ _ _ _ I q cq Hq Hc Hl) as (j & b & Hj). exists j, b.
    rewrite replace_other; [assumption|]. intros <-. congruence.
Qed.

Lemma eff_ctx : forall m0 m vs xs i a p c c' f msg, inv m0 m vs xs -> nth_error vs i = Some (a, Some p) ->
  nth_error m p = Some (mk_cell true Heap (OCtx a c)) -> ctx_repr a (start a f) 0 c' msg ->
  inv m0 (setl p (OCtx a c') m) vs (replace xs i (Some (f, msg))).
Proof.
  intros m0 m vs xs i a p c c' f msg I Hi Hp R.
  destruct (i_vars _ _ _ _ I _ _ _ Hi) as (x0 & Hx0 & Hv0). destruct x0 as [[f0 msg0]|]; [|contradiction].
  destruct Hv0 as (Hpge & _). split.
  - apply setl_ok; [apply (i_ok _ _ _ _ I)|exact (re_wf _ _ _ _ _ R)].
  - rewrite setl_length. apply (i_ge _ _ _ _ I).
  - intros q cq Hq. destruct (i_old _ _ _ _ I q cq Hq) as (cc & Hcc & K). exists cc. split; [|assumption].
    rewrite setl_nth_other; [assumption|]. apply nth_lt in Hq. lia.
  - rewrite !replace_length. apply (i_len _ _ _ _ I).
  - intros j b q Hj. destruct (Nat.eq_dec i j) as [<-|Hne].
    + assert (b = a /\ q = Some p) as [-> ->] by (split; congruence). exists (Some (f, msg)). split.
      { apply replace_same. eapply nth_lt; eassumption. }
      split; [assumption|]. exists c'. split; [|assumption]. rewrite (setl_nth_same _ _ _ _ Hp). reflexivity.
    + destruct (i_vars _ _ _ _ I j b q Hj) as (x & Hx & Hv). exists x. rewrite replace_other by assumption. split; [assumption|].
      destruct q as [q|], x as [[f1 msg1]|]; try exact Hv. destruct Hv as (Hge' & c0 & Hc0 & R0). split; [assumption|].
      exists c0. split; [|assumption]. rewrite setl_nth_other; [assumption|]. intros <-.
      apply Hne. eapply (i_inj _ _ _ _ I); eassumption.
  - apply (i_inj _ _ _ _ I).
  - intros q cq Hq Hc Hl. destruct (Nat.eq_dec p q) as [<-|Hne]; [eauto|].
    rewrite setl_nth_other in Hc by assumption. eapply (i_own _ _ _ _ I); eassumption.
Qed.

(* ------------------------------------------------------------- single calls *)

Definition cdig (a : algid) (m : list N) : list N := code_hash a (a_iv (alg_of a)) 0 m.
Definition cstale (a : algid) (m : list N) : list N := code_hash a (repeat 0 (nh a)) 0 m.
Definition cmac (a : algid) (k m : list N) : list N := code_outer a (code_hmac_key a k) m.

Lemma set_mem_eq : forall p o s, mem (set_obj p o s) = setl p o (mem s).
Proof. intros. unfold set_obj, setl. destruct (nth_error (mem s) p); reflexivity. Qed.

(* the deprecated names behave the same, up to the error entries *)
Lemma do_initialize_mem : forall E old a c e s r v s1, context_initialize E a c e s = Done (r, v) s1 -> (r = 1 \/ r = -1)%Z ->
  exists s2, do_initialize E old a c e s = Done (r, v) s2 /\ mem s2 = mem s1 /\ tries s2 = tries s1.
Proof.
  intros E [|] a c e s r v s1 H Hr; cbn [do_initialize]; [|eauto]. unfold hash_initialize. erewrite bind_done by exact H.
  destruct Hr as [-> | ->]; cbn; eauto.
Qed.
Lemma do_free_mem : forall old a c e s r v s1, context_free a c e s = Done (r, v) s1 -> (r = 1 \/ r = -1)%Z ->
  exists s2, do_free old a c e s = Done (r, v) s2 /\ mem s2 = mem s1 /\ tries s2 = tries s1.
Proof.
  intros [|] a c e s r v s1 H Hr; cbn [do_free]; [|eauto]. unfold hash_free. erewrite bind_done by exact H.
  destruct Hr as [-> | ->]; cbn; eauto.
Qed.
Lemma do_update_mem : forall E old a c b n e s r s1, context_update E a c b n e s = Done r s1 -> (r = 1 \/ r = -1)%Z ->
  exists s2, do_update E old a c b n e s = Done r s2 /\ mem s2 = mem s1 /\ tries s2 = tries s1.
Proof.
  intros E [|] a c b n e s r s1 H Hr; cbn [do_update]; [|eauto]. unfold hash_update. erewrite bind_done by exact H.
  destruct Hr as [-> | ->]; cbn; eauto.
Qed.
Lemma do_finalize_mem : forall E old a c h n e s r s1, context_finalize E a c h n e s = Done r s1 -> (r = 1 \/ r = -1)%Z ->
  exists s2, do_finalize E old a c h n e s = Done r s2 /\ mem s2 = mem s1 /\ tries s2 = tries s1.
Proof.
  intros E [|] a c h n e s r s1 H Hr; cbn [do_finalize]; [|eauto]. unfold hash_finalize. erewrite bind_done by exact H.
  destruct Hr as [-> | ->]; cbn; eauto.
Qed.

Lemma get_obj_mem : forall s s' p, mem s = mem s' -> get_obj s p = get_obj s' p.
Proof. intros s s' p H. unfold get_obj. now rewrite H. Qed.
Lemma bytes_at_mem : forall s s' p n, mem s = mem s' -> bytes_at s p n = bytes_at s' p n.
Proof. intros. unfold bytes_at. erewrite get_obj_mem by eassumption. reflexivity. Qed.

Lemma inv_access : forall s0 s vs xs p n, inv (mem s0) (mem s) vs xs -> accessible s0 p n ->
  accessible s p n /\ (fst p < length (mem s0))%nat.
Proof.
  intros s0 s vs xs p n I (l & Hl & Hn). pose proof (get_obj_lt _ _ _ Hl) as Hlt. split; [|assumption].
  apply get_obj_cell in Hl. destruct Hl as (c & Hc & Hlv & Hco).
  destruct (i_old _ _ _ _ I _ _ Hc) as (c' & Hc' & K1 & K2 & K3). rewrite Hco in K3. destruct K3 as (l' & Hl' & HL).
  exists l'. split; [unfold get_obj; rewrite Hc', K1, Hlv, Hl'; reflexivity|lia].
Qed.
Lemma inv_arg : forall s0 s vs xs p n, inv (mem s0) (mem s) vs xs -> arg s0 p n -> arg s p n.
Proof. intros s0 s vs xs [p|] n I H; [|exact Logic.I]. eapply inv_access; eassumption. Qed.

Definition step_ok (vs : vars) (xs xs' : list (option (bool * list N))) (o : obs) : Prop :=
  forall i a p x x', nth_error vs i = Some (a, p) -> nth_error xs i = Some x -> nth_error xs' i = Some x' ->
  forall t, accepts (cdig a) (cstale a) x' i t -> accepts (cdig a) (cstale a) x i (o :: t).

Lemma bytes_put : forall s p l d n, get_obj s (fst p) = Some (OBytes (put l (snd p) d)) -> length d = N.to_nat n ->
  snd p + n <= N.of_nat (length l) -> bytes_at s p n = d.
Proof.
  intros s p l d n Hg Hd Hl. unfold bytes_at. rewrite Hg. unfold put.
  rewrite skipn_app, firstn_length, Nat.min_l by lia. rewrite Nat.sub_diag. cbn [skipn].
  rewrite (@skipn_all2 _ (N.to_nat (snd p))) by (rewrite firstn_length; lia). cbn [app].
  rewrite firstn_app, Hd, Nat.sub_diag. cbn [firstn]. rewrite app_nil_r. apply firstn_all2. lia.
Qed.

Lemma digest_size_eq : forall a, digest_size a = a_hs (alg_of a).
Proof. destruct a; reflexivity. Qed.
Lemma block_size_eq : forall a, block_size a = hmac_block_size a.
Proof. destruct a; reflexivity. Qed.

Lemma replace_same_id : forall A (l : list A) i v, nth_error l i = Some v -> replace l i v = l.
Proof. intros. apply replace_id. assumption. Qed.

Lemma start_ok : forall a f, hash_ok a (start a f).
Proof. intros a [|]; [apply iv_ok|apply zero_hash_ok]. Qed.

Definition call_post (E : env) (s0 : state) (c : call) (vs : vars) (xs : list (option (bool * list N))) (s : state) : Prop :=
  exists o vs' s' xs', run_call E c vs s = Done (o, vs') s' /\ inv (mem s0) (mem s') vs' xs' /\
  map fst vs' = map fst vs /\ step_ok vs xs xs' o /\ one_shot_ok cdig cmac o /\ (tries s <= tries s')%nat.

Lemma replace_map : forall A B (f : A -> B) l i v w, nth_error l i = Some w -> f v = f w -> map f (replace l i v) = map f l.
Proof.
  intros A B f. induction l; intros [|i] v w H Hf; cbn in *; try discriminate.
  - congruence.
  - f_equal. eapply IHl; eassumption.
Qed.

Lemma call_initialize : forall E s0 s vs xs old v e, inv (mem s0) (mem s) vs xs -> valid_call s0 vs (CInitialize old v e) ->
  call_post E s0 (CInitialize old v e) vs xs s.
Proof.
  intros E s0 s vs xs old [a|i] e I V; unfold call_post; cbn [run_call].
  - destruct (do_initialize_mem E old a None e s (-1) None (add_err e E_ARGUMENT_INVALID_VALUE s)) as (s2 & H2 & HM & HT);
      [reflexivity|auto|].
    exists (ONull (-1)), vs, s2, xs. erewrite bind_done by exact H2. split; [reflexivity|].
    rewrite HM. split; [exact I|]. split; [reflexivity|]. split; [|split; [reflexivity|rewrite HT; cbn; lia]].
    intros j b p x x' _ Hx Hx' t Ha. cbn [accepts]. congruence.
  - destruct (nth_error vs i) as [[a p]|] eqn:Hi; [|apply nth_error_None in Hi; cbn in V; lia].
    destruct (i_vars _ _ _ _ I _ _ _ Hi) as (x0 & Hx0 & Hv0).
    destruct p as [p|].
    + destruct (do_initialize_mem E old a (Some (Some p)) e s (-1) (Some p) (add_err e E_RUNTIME_VALUE_ALREADY_SET s)) as (s2 & H2 & HM & HT);
        [reflexivity|auto|].
      exists (OInitialize i (-1)), vs, s2, xs. cbn [lift]. rewrite bind_ret. cbn [fst snd]. erewrite bind_done by exact H2. cbn [fst snd].
      rewrite replace_same_id by assumption. split; [reflexivity|]. rewrite HM. split; [exact I|]. split; [reflexivity|].
      split; [|split; [exact Logic.I|rewrite HT; cbn; lia]].
      intros j b p' x x' Hj Hx Hx' t Ha. cbn [accepts]. destruct (Nat.eqb_spec j i) as [->|Hne]; [|congruence].
      assert (x = x0) by congruence. subst x. destruct x0 as [y|]; [|contradiction]. split; [reflexivity|congruence].
    + destruct (alloc_ok E (tries s)) eqn:Eal.
      * destruct (do_initialize_mem E old a (Some None) e s 1 (Some (length (mem s))) (tick (new_cell Heap (OCtx a (init_ctx a)) s))) as (s2 & H2 & HM & HT);
          [rewrite initialize_eq, Eal; reflexivity|auto|].
        exists (OInitialize i 1), (replace vs i (a, Some (length (mem s)))), s2, (replace xs i (Some (true, []))).
        cbn [lift]. rewrite bind_ret. cbn [fst snd]. erewrite bind_done by exact H2. cbn [fst snd]. split; [reflexivity|].
        rewrite HM. split; [apply eff_new; assumption|]. split; [eapply replace_map; [exact Hi|reflexivity]|].
        split; [|split; [exact Logic.I|rewrite HT; cbn; lia]].
        intros j b p' x x' Hj Hx Hx' t Ha. cbn [accepts]. apply replace_nth in Hx'.
        destruct (Nat.eqb_spec j i) as [->|Hne]; [|destruct Hx' as [(? & _)|(_ & Hx')]; [congruence|congruence]].
        destruct Hx' as [(_ & ->)|(? & _)]; [|congruence]. assert (x = x0) by congruence. subst x.
        destruct x0; [contradiction|]. left. now split.
      * destruct (do_initialize_mem E old a (Some None) e s (-1) None (add_err e E_MEMORY_INSUFFICIENT (tick s))) as (s2 & H2 & HM & HT);
          [rewrite initialize_eq, Eal; reflexivity|auto|].
        exists (OInitialize i (-1)), vs, s2, xs. cbn [lift]. rewrite bind_ret. cbn [fst snd]. erewrite bind_done by exact H2. cbn [fst snd].
        rewrite replace_same_id by assumption. split; [reflexivity|]. rewrite HM. split; [exact I|]. split; [reflexivity|].
        split; [|split; [exact Logic.I|rewrite HT; cbn; lia]].
        intros j b p' x x' Hj Hx Hx' t Ha. cbn [accepts]. destruct (Nat.eqb_spec j i) as [->|Hne]; [|congruence].
        assert (x = x0) by congruence. subst x. destruct x0 as [y|]; [contradiction|]. right. split; [reflexivity|congruence].
Qed.

Lemma call_free : forall E s0 s vs xs old v e, inv (mem s0) (mem s) vs xs -> valid_call s0 vs (CFree old v e) ->
  call_post E s0 (CFree old v e) vs xs s.
Proof.
  intros E s0 s vs xs old [a|i] e I V; unfold call_post; cbn [run_call].
  - destruct (do_free_mem old a None e s (-1) None (add_err e E_ARGUMENT_INVALID_VALUE s)) as (s2 & H2 & HM & HT);
      [reflexivity|auto|].
    exists (ONull (-1)), vs, s2, xs. erewrite bind_done by exact H2. split; [reflexivity|].
    rewrite HM. split; [exact I|]. split; [reflexivity|]. split; [|split; [reflexivity|rewrite HT; cbn; lia]].
    intros j b p x x' _ Hx Hx' t Ha. cbn [accepts]. congruence.
  - destruct (nth_error vs i) as [[a p]|] eqn:Hi; [|apply nth_error_None in Hi; cbn in V; lia].
    destruct (i_vars _ _ _ _ I _ _ _ Hi) as (x0 & Hx0 & Hv0).
    destruct p as [p|].
    + destruct x0 as [[f msg]|]; [|contradiction]. destruct Hv0 as (Hge & c & Hc & R).
      destruct (do_free_mem old a (Some (Some p)) e s 1 None (set_mem (replace (mem s) p (mk_cell false Heap (OCtx a c))) s)) as (s2 & H2 & HM & HT);
        [unfold context_free, mfree, bind; rewrite Hc; reflexivity|auto|].
      exists (OFree i 1), (replace vs i (a, None)), s2, (replace xs i None). cbn [lift]. rewrite bind_ret. cbn [fst snd].
      erewrite bind_done by exact H2. cbn [fst snd]. split; [reflexivity|].
      rewrite HM. split; [apply eff_kill; assumption|]. split; [eapply replace_map; [exact Hi|reflexivity]|].
      split; [|split; [exact Logic.I|rewrite HT; cbn; lia]].
      intros j b p' x x' Hj Hx Hx' t Ha. cbn [accepts]. apply replace_nth in Hx'.
      destruct (Nat.eqb_spec j i) as [->|Hne]; [|destruct Hx' as [(? & _)|(_ & Hx')]; [congruence|congruence]].
      destruct Hx' as [(_ & ->)|(? & _)]; [|congruence]. now split.
    + destruct (do_free_mem old a (Some None) e s 1 None s) as (s2 & H2 & HM & HT); [reflexivity|auto|].
      exists (OFree i 1), vs, s2, xs. cbn [lift]. rewrite bind_ret. cbn [fst snd]. erewrite bind_done by exact H2. cbn [fst snd].
      rewrite replace_same_id by assumption. split; [reflexivity|]. rewrite HM. split; [exact I|]. split; [reflexivity|].
      split; [|split; [exact Logic.I|rewrite HT; cbn; lia]].
      intros j b p' x x' Hj Hx Hx' t Ha. cbn [accepts]. destruct (Nat.eqb_spec j i) as [->|Hne]; [|congruence].
      assert (x = x0) by congruence. subst x. destruct x0; [contradiction|]. split; [reflexivity|congruence].
Qed.

Lemma inv_wf_state : forall m0 s vs xs, inv m0 (mem s) vs xs -> wf_state s.
Proof. intros. apply wf_cells. eapply i_ok; eassumption. Qed.

Lemma bytes_at_bytes : forall s p n, wf_state s -> accessible s p n -> Forall is_byte (bytes_at s p n).
Proof.
  intros s p n W (l & Hl & _). unfold bytes_at. rewrite Hl. apply Forall_firstn, Forall_skipn. exact (W _ _ Hl).
Qed.

Lemma call_update : forall E s0 s vs xs old v b n e, inv (mem s0) (mem s) vs xs -> valid_call s0 vs (CUpdate old v b n e) ->
  call_post E s0 (CUpdate old v b n e) vs xs s.
Proof.
  intros E s0 s vs xs old [a|i] b n e I [V HB]; unfold call_post; cbn [run_call].
  - destruct (do_update_mem E old a None b n e s (-1) (add_err e E_ARGUMENT_INVALID_VALUE s)) as (s2 & H2 & HM & HT);
      [reflexivity|auto|].
    exists (ONull (-1)), vs, s2, xs. erewrite bind_done by exact H2. split; [reflexivity|].
    rewrite HM. split; [exact I|]. split; [reflexivity|]. split; [|split; [reflexivity|rewrite HT; cbn; lia]].
    intros j b' p x x' _ Hx Hx' t Ha. cbn [accepts]. congruence.
  - destruct (nth_error vs i) as [[a p]|] eqn:Hi; [|apply nth_error_None in Hi; cbn in V; lia].
    destruct (i_vars _ _ _ _ I _ _ _ Hi) as (x0 & Hx0 & Hv0).
    cbn [lift]. rewrite bind_ret. cbn [fst snd]. unfold bind at 1. unfold peek.
    set (d := match b with None => [] | Some q => bytes_at s q n end).
    destruct (update_error E p b n) as [k|] eqn:Eu.
    + destruct (do_update_mem E old a p b n e s (-1) (add_err e k s)) as (s2 & H2 & HM & HT);
        [apply update_rejects; assumption|auto|].
      exists (OUpdate i d (-1)), vs, s2, xs. erewrite bind_done by exact H2. split; [reflexivity|].
      rewrite HM. split; [exact I|]. split; [reflexivity|]. split; [|split; [exact Logic.I|rewrite HT; cbn; lia]].
      intros j b' p' x x' Hj Hx Hx' t Ha. cbn [accepts]. destruct (Nat.eqb_spec j i) as [->|Hne]; [|congruence].
      assert (x = x0) by congruence. subst x. assert (x' = x0) by congruence. subst x'.
      destruct x0 as [[f m]|]; [right|]; now split.
    + destruct (update_error_none _ _ _ _ Eu) as (p' & bp & -> & -> & Hsz).
      destruct x0 as [[f msg]|]; [|contradiction]. destruct Hv0 as (Hge & c & Hc & R).
      pose proof (inv_wf_state _ _ _ _ I) as WS. pose proof (inv_arg _ _ _ _ _ _ I HB) as HB'. cbn [arg] in HB'.
      assert (Gc : get_obj s p' = Some (OCtx a c)) by (unfold get_obj; rewrite Hc; reflexivity).
      destruct (context_update_ok E a p' bp n e s c WS Gc HB' Hsz) as (fs & Hfs & HU).
      destruct (do_update_mem E old a (Some p') (Some bp) n e s 1 _ HU) as (s2 & H2 & HM & HT); [auto|].
      exists (OUpdate i d 1), vs, s2, (replace xs i (Some (f, msg ++ d))). erewrite bind_done by exact H2. split; [reflexivity|].
      cbn [add_frames mem] in HM. rewrite HM, set_mem_eq.
      assert (R' : ctx_repr a (start a f) 0 (update_fn a c d) (msg ++ d)).
      { apply update_repr; [assumption|]. apply bytes_at_bytes; assumption. }
      split; [eapply eff_ctx; eassumption|]. split; [reflexivity|].
      split; [|split; [exact Logic.I|rewrite HT; cbn; rewrite set_obj_tries; lia]].
      intros j b' q x x' Hj Hx Hx' t Ha. cbn [accepts]. apply replace_nth in Hx'.
      destruct (Nat.eqb_spec j i) as [->|Hne]; [|destruct Hx' as [(? & _)|(_ & Hx')]; [congruence|congruence]].
      destruct Hx' as [(_ & ->)|(? & _)]; [|congruence]. assert (x = Some (f, msg)) by congruence. subst x. left. now split.
Qed.

Lemma digest_fn_length : forall a c, ctx_wf a c -> length (digest_fn a c) = N.to_nat (a_hs (alg_of a)).
Proof. intros a c W. unfold digest_fn. apply digest_bytes_length, blocks_ok, (wf_hash _ _ W). Qed.

Lemma call_finalize : forall E s0 s vs xs old v h n e, inv (mem s0) (mem s) vs xs -> valid_call s0 vs (CFinalize old v h n e) ->
  call_post E s0 (CFinalize old v h n e) vs xs s.
Proof.
  intros E s0 s vs xs old [a|i] h n e I [V HH]; unfold call_post; cbn [run_call].
  - destruct (do_finalize_mem E old a None h n e s (-1) (add_err e E_ARGUMENT_INVALID_VALUE s)) as (s2 & H2 & HM & HT);
      [reflexivity|auto|].
    exists (ONull (-1)), vs, s2, xs. erewrite bind_done by exact H2. split; [reflexivity|].
    rewrite HM. split; [exact I|]. split; [reflexivity|]. split; [|split; [reflexivity|rewrite HT; cbn; lia]].
    intros j b' p x x' _ Hx Hx' t Ha. cbn [accepts]. congruence.
  - destruct (nth_error vs i) as [[a p]|] eqn:Hi; [|apply nth_error_None in Hi; cbn in V; lia].
    destruct (i_vars _ _ _ _ I _ _ _ Hi) as (x0 & Hx0 & Hv0).
    cbn [lift]. rewrite bind_ret. cbn [fst snd].
    destruct (finalize_error E a p h n) as [k|] eqn:Eu.
    + destruct (do_finalize_mem E old a p h n e s (-1) (add_err e k s)) as (s2 & H2 & HM & HT);
        [apply finalize_rejects; assumption|auto|].
      exists (OFinalize i [] (-1)), vs, s2, xs. erewrite bind_done by exact H2. split; [reflexivity|].
      rewrite HM. split; [exact I|]. split; [reflexivity|]. split; [|split; [exact Logic.I|rewrite HT; cbn; lia]].
      intros j b' p' x x' Hj Hx Hx' t Ha. cbn [accepts]. destruct (Nat.eqb_spec j i) as [->|Hne]; [|congruence].
      assert (x = x0) by congruence. subst x. assert (x' = x0) by congruence. subst x'.
      destruct x0 as [[f m]|]; [right|]; now split.
    + destruct (finalize_error_none _ _ _ _ _ Eu) as (p' & hp & -> & -> & Hs1 & Hs2).
      destruct x0 as [[f msg]|]; [|contradiction]. destruct Hv0 as (Hge & c & Hc & R).
      pose proof (inv_wf_state _ _ _ _ I) as WS. cbn [arg] in HH.
      destruct (inv_access _ _ _ _ _ _ I HH) as [(l & Hl & Hll) Hlt].
      assert (Gc : get_obj s p' = Some (OCtx a c)) by (unfold get_obj; rewrite Hc; reflexivity).
      destruct (context_finalize_ok E a p' hp n e s c l WS Gc Hl) as (fr & Hfr & HU); try lia.
      destruct (do_finalize_mem E old a (Some p') (Some hp) n e s 1 _ HU) as (s2 & H2 & HM & HT); [auto|].
      cbn [add_frames mem] in HM. rewrite set_mem_eq, set_mem_eq in HM.
      assert (HD : bytes_at s2 hp (digest_size a) = digest_fn a c).
      { rewrite digest_size_eq. apply (bytes_put s2 hp l).
        - apply get_obj_cell in Hl. destruct Hl as (ch & Hch & Hlv & Hco).
          unfold get_obj. rewrite HM, setl_nth_other by lia. rewrite (setl_nth_same _ _ _ _ Hch). cbn. now rewrite Hlv.
        - apply digest_fn_length. apply (re_wf _ _ _ _ _ R).
        - lia. }
      exists (OFinalize i (digest_fn a c) 1), vs, s2, (replace xs i (Some (false, []))). erewrite bind_done by exact H2.
      unfold peek_if, peek. cbn [Z.eqb Pos.eqb]. unfold bind at 1. rewrite HD. split; [reflexivity|].
      rewrite HM.
      split.
      { apply get_obj_cell in Hl. destruct Hl as (ch & Hch & Hlv & Hco).
        eapply eff_ctx; [|exact Hi| |apply zero_repr].
        - eapply eff_bytes; [exact I|assumption|exact Hch|exact Hco| |].
          + apply put_length. rewrite digest_fn_length by apply (re_wf _ _ _ _ _ R). lia.
          + apply Forall_put.
            * pose proof (i_ok _ _ _ _ I) as Hok. rewrite Forall_forall in Hok.
              specialize (Hok _ (nth_error_In _ _ Hch) Hlv). rewrite Hco in Hok. exact Hok.
            * apply digest_bytes_bytes.
        - rewrite setl_nth_other by lia. exact Hc. }
      split; [reflexivity|]. split; [|split; [exact Logic.I|rewrite HT; cbn; rewrite !set_obj_tries; lia]].
      intros j b' q x x' Hj Hx Hx' t Ha. cbn [accepts]. apply replace_nth in Hx'.
      destruct (Nat.eqb_spec j i) as [->|Hne]; [|destruct Hx' as [(? & _)|(_ & Hx')]; [congruence|congruence]].
      destruct Hx' as [(_ & ->)|(? & _)]; [|congruence]. assert (x = Some (f, msg)) by congruence. subst x. left.
      split; [reflexivity|]. split; [|assumption]. assert (b' = a) by congruence. subst b'.
      rewrite (digest_repr _ _ _ _ _ R). destruct f; reflexivity.
Qed.

Lemma bytesl_eq : forall s p n, bytesl (mem s) p n = bytes_at s p n.
Proof. intros. unfold bytesl. apply bytes_at_mem. unfold st. cbn. apply app_nil_r. Qed.
Lemma argl_eq : forall s p n, argl (mem s) p n <-> arg s p n.
Proof.
  intros s [p|] n; [|reflexivity]. unfold argl, arg, accessible.
  rewrite (get_obj_mem (st (mem s) [] 0 [] []) s); [reflexivity|]. unfold st. cbn. apply app_nil_r.
Qed.

Lemma no_vars_step : forall vs xs o, (forall j D S x t, accepts D S x j (o :: t) = accepts D S x j t) -> step_ok vs xs xs o.
Proof. intros vs xs o H i a p x x' _ Hx Hx' t Ha. rewrite H. congruence. Qed.

Lemma call_calculate : forall E s0 s vs xs a b n h hn e, inv (mem s0) (mem s) vs xs -> valid_call s0 vs (CCalculate a b n h hn e) ->
  call_post E s0 (CCalculate a b n h hn e) vs xs s.
Proof.
  intros E s0 s vs xs a b n h hn e I [HB HH]; unfold call_post; cbn [run_call]. unfold bind at 1. unfold peek.
  set (d := match b with None => [] | Some q => bytes_at s q n end).
  pose proof (inv_wf_state _ _ _ _ I) as WS.
  destruct (calculate_cases E a b n h hn e s WS (inv_arg _ _ _ _ _ _ I HB) (inv_arg _ _ _ _ _ _ I HH)) as
    [(Eal & HR)|[(Eal & ks & c & fs & HE & Hfs & HR)|(Eal & HE & bp & hp & l & fs & -> & -> & Hl & Hfs & HR)]].
  - exists (OCalculate a d [] (-1)), vs. eexists. exists xs. erewrite bind_done by exact HR. split; [reflexivity|].
    split; [exact I|]. split; [reflexivity|]. split; [now apply no_vars_step|]. split; [now left|cbn; lia].
  - exists (OCalculate a d [] (-1)), vs. eexists. exists xs. erewrite bind_done by exact HR. split; [reflexivity|].
    split; [apply eff_dead; [exact I|apply Forall_cons; [reflexivity|apply Forall_nil]]|]. split; [reflexivity|].
    split; [now apply no_vars_step|]. split; [now left|cbn; lia].
  - assert (HC : finalize_error E a (Some 0%nat) (Some hp) hn = None).
    { revert HE. unfold calculate_ctx_error. destruct update_error; [discriminate|]. destruct finalize_error; [discriminate|reflexivity]. }
    destruct (finalize_error_none _ _ _ _ _ HC) as (_ & _ & _ & _ & Hs1 & Hs2).
    cbn [arg] in HH. destruct (inv_access _ _ _ _ _ _ I HH) as [(l1 & Hl1 & Hll) Hlt].
    assert (l1 = l) by congruence. subst l1.
    apply get_obj_cell in Hl. destruct Hl as (ch & Hch & Hlv & Hco).
    assert (LD : length (cdig a d) = N.to_nat (a_hs (alg_of a))) by (apply code_hash_length, iv_ok).
    exists (OCalculate a d (cdig a d) 1), vs. eexists. exists xs. erewrite bind_done by exact HR.
    unfold peek_if, peek. cbn [Z.eqb Pos.eqb]. unfold bind at 1. fold d. fold (cdig a d). split.
    { match goal with |- context [bytes_at ?S hp ?n] => assert (HD : bytes_at S hp n = cdig a d) end; [|rewrite HD; reflexivity].
      rewrite digest_size_eq. eapply (bytes_put _ hp l); [|exact LD|lia].
      unfold get_obj. cbn [mem]. rewrite nth_error_app1 by (rewrite setl_length; eapply nth_lt; eassumption).
      rewrite (setl_nth_same _ _ _ _ Hch). cbn. now rewrite Hlv. }
    split.
    { cbn [mem]. apply eff_dead; [|apply Forall_cons; [reflexivity|apply Forall_nil]].
      eapply eff_bytes; [exact I|assumption|exact Hch|exact Hco|apply put_length; lia|].
      apply Forall_put; [|apply code_hash_bytes]. pose proof (i_ok _ _ _ _ I) as Hok. rewrite Forall_forall in Hok.
      specialize (Hok _ (nth_error_In _ _ Hch) Hlv). rewrite Hco in Hok. exact Hok. }
    split; [reflexivity|]. split; [now apply no_vars_step|]. split; [right; split; reflexivity|cbn; lia].
Qed.

Lemma clean_dead : forall a l, Forall (clean_cell a) l -> Forall (fun c => live c = false) l.
Proof. intros a l H. eapply Forall_impl; [|exact H]. intros c [->|[x ->]]; reflexivity. Qed.
Lemma erased_dead : forall a l, Forall (erased_cell a) l -> Forall (fun c => live c = false) l.
Proof. intros a l H. eapply Forall_impl; [|exact H]. intros c [->| ->]; reflexivity. Qed.

Lemma out_at_inv : forall m0 m vs xs hm n d m' hp, inv m0 m vs xs -> hm = Some hp -> (fst hp < length m0)%nat ->
  N.of_nat (length d) <= n -> Forall is_byte d -> out_at m hm n d m' -> inv m0 m' vs xs.
Proof.
  intros m0 m vs xs hm n d m' hp I -> Hlt Hd HB (hp' & l & ch & Heq & Hch & Hlv & Hco & Hl & ->). injection Heq as <-.
  eapply eff_bytes; [exact I|assumption|exact Hch|exact Hco|apply put_length; lia|].
  apply Forall_put; [|assumption]. pose proof (i_ok _ _ _ _ I) as Hok. rewrite Forall_forall in Hok.
  specialize (Hok _ (nth_error_In _ _ Hch) Hlv). rewrite Hco in Hok. exact Hok.
Qed.

Lemma call_hmac : forall E s0 s vs xs a k kn b n h hn e, inv (mem s0) (mem s) vs xs -> valid_call s0 vs (CHmac a k kn b n h hn e) ->
  call_post E s0 (CHmac a k kn b n h hn e) vs xs s.
Proof.
  intros E s0 s vs xs a k kn b n h hn e I (HK & HB & HH); unfold call_post; cbn [run_call].
  unfold bind at 1. unfold peek at 1. unfold bind at 1. unfold peek at 1.
  set (key := match k with None => [] | Some q => bytes_at s q kn end).
  set (d := match b with None => [] | Some q => bytes_at s q n end).
  pose proof (i_ok _ _ _ _ I) as Hok.
  destruct (hmac_st E a k kn b n h hn e (mem s) (tries s) (errs s) (resid s)) as
    (r & old' & news' & khl & t' & ks & fs & HR & HL & Hfs & Ht & HE);
    try assumption; try (apply argl_eq; eapply inv_arg; eassumption).
  rewrite <- st_of in HR.
  destruct HE as [(-> & -> & Hn & Ha & HE1 & HE2 & kp & bp & -> & -> & Hout & Hkh)|[(-> & Hk & Hn & -> & Hwhy)|(-> & Hk & Hn & Ha & HE1 & HE2 & kp & bp & -> & -> & Hout)]].
  - destruct Hout as (hp & l & ch & -> & Hch & Hlv & Hco & Hl & ->). rewrite !bytesl_eq in *.
    fold key in HR. fold d in HR. fold (cmac a key d) in HR.
    destruct (inv_access _ _ _ _ _ _ I HH) as [_ Hlt].
    assert (HC : finalize_error E a (Some 0%nat) (Some hp) hn = None).
    { revert HE2. unfold calculate_ctx_error. destruct update_error; [discriminate|]. destruct finalize_error; [discriminate|reflexivity]. }
    destruct (finalize_error_none _ _ _ _ _ HC) as (_ & _ & _ & _ & Hs1 & Hs2).
    assert (LD : length (cmac a key d) = N.to_nat (a_hs (alg_of a))) by (apply code_hash_length, iv_ok).
    exists (OHmac a key d (cmac a key d) 1), vs. eexists. exists xs. erewrite bind_done by exact HR.
    unfold peek_if, peek. cbn [Z.eqb Pos.eqb]. unfold bind at 1. split.
    { match goal with |- context [bytes_at ?S hp ?n] => assert (HD : bytes_at S hp n = cmac a key d) end; [|rewrite HD; reflexivity].
      rewrite digest_size_eq. eapply (bytes_put _ hp l); [|exact LD|lia].
      unfold get_obj. cbn [mem st]. rewrite nth_error_app1 by (rewrite setl_length; eapply nth_lt; eassumption).
      rewrite (setl_nth_same _ _ _ _ Hch). cbn. now rewrite Hlv. }
    split.
    { cbn [mem st]. apply eff_dead; [|apply Forall_cons; [reflexivity|eapply erased_dead; eassumption]].
      eapply out_at_inv; [exact I|reflexivity|exact Hlt| | |exists hp, l, ch; repeat split; eassumption].
      - rewrite LD. lia.
      - apply code_hash_bytes. }
    split; [reflexivity|]. split; [now apply no_vars_step|]. split; [right; split; reflexivity|cbn; lia].
  - exists (OHmac a key d [] (-1)), vs. eexists. exists xs. erewrite bind_done by exact HR. split; [reflexivity|].
    split; [cbn [mem st]; apply eff_dead; [exact I|apply Forall_cons; [reflexivity|eapply clean_dead; eassumption]]|]. split; [reflexivity|].
    split; [now apply no_vars_step|]. split; [now left|cbn; lia].
  - exists (OHmac a key d [] (-1)), vs. eexists. exists xs. erewrite bind_done by exact HR. split; [reflexivity|].
    split.
    { cbn [mem st]. apply eff_dead; [|apply Forall_cons; [reflexivity|eapply erased_dead; eassumption]].
      pose proof Hout as (hp & l & ch & -> & _). destruct (inv_access _ _ _ _ _ _ I HH) as [_ Hlt].
      assert (HC : finalize_error E a (Some 0%nat) (Some hp) hn = None).
      { revert HE2. unfold calculate_ctx_error. destruct update_error; [discriminate|]. destruct finalize_error; [discriminate|reflexivity]. }
      destruct (finalize_error_none _ _ _ _ _ HC) as (_ & _ & _ & _ & Hs1 & Hs2).
      eapply out_at_inv; [exact I|reflexivity|exact Hlt| | |exact Hout].
      - unfold code_inner. rewrite code_hash_length by apply iv_ok. lia.
      - apply code_hash_bytes. }
    split; [reflexivity|].
    split; [now apply no_vars_step|]. split; [now left|cbn; lia].
Qed.

Lemma call_any : forall E s0 s vs xs c, inv (mem s0) (mem s) vs xs -> valid_call s0 vs c -> call_post E s0 c vs xs s.
Proof.
  intros E s0 s vs xs [] I V; [apply call_initialize|apply call_free|apply call_update|apply call_finalize|apply call_calculate|apply call_hmac]; assumption.
Qed.

(* ---------------------------------------------------------------- programs *)

Lemma valid_vars : forall s0 vs vs' c, map fst vs' = map fst vs -> valid_call s0 vs c -> valid_call s0 vs' c.
Proof.
  intros s0 vs vs' c H. assert (L : length vs' = length vs) by (rewrite <- (map_length fst vs'), H, map_length; reflexivity).
  destruct c as [? [|]|? [|]|? [|]|? [|]| |]; cbn; rewrite ?L; auto.
Qed.

Lemma run_any : forall E s0 h vs xs s, inv (mem s0) (mem s) vs xs -> Forall (valid_call s0 vs) h ->
  exists os vs' s' xs', run E h vs s = Done (os, vs') s' /\ inv (mem s0) (mem s') vs' xs' /\ map fst vs' = map fst vs /\
  length os = length h /\
  Forall (one_shot_ok cdig cmac) os /\ (tries s <= tries s')%nat /\
  forall i a p x, nth_error vs i = Some (a, p) -> nth_error xs i = Some x -> accepts (cdig a) (cstale a) x i os.
Proof.
  intros E s0. induction h as [|c h IH]; intros vs xs s I V.
  - exists [], vs, s, xs. split; [reflexivity|]. split; [assumption|]. do 2 (split; [reflexivity|]). split; [apply Forall_nil|].
    split; [apply Nat.le_refl|]. intros. exact Logic.I.
  - assert (V1 : valid_call s0 vs c) by (inversion V; assumption). assert (V2 : Forall (valid_call s0 vs) h) by (inversion V; assumption).
    destruct (call_any E s0 s vs xs c I V1) as (o & vs1 & s1 & xs1 & HR & I1 & HF & HS & HO & HT).
    destruct (IH vs1 xs1 s1 I1) as (os & vs2 & s2 & xs2 & HR2 & I2 & HF2 & HL2 & HO2 & HT2 & HA).
    { eapply Forall_impl; [|exact V2]. intros c' Hc'. eapply valid_vars; eassumption. }
    exists (o :: os), vs2, s2, xs2. cbn [run]. erewrite bind_done by exact HR. cbn [fst snd].
    erewrite bind_done by exact HR2. cbn [fst snd]. split; [reflexivity|]. split; [assumption|]. split; [congruence|].
    split; [cbn; congruence|]. split; [now apply Forall_cons|]. split; [lia|].
    intros i a p x Hi Hx.
    assert (exists p1, nth_error vs1 i = Some (a, p1)) as [p1 Hi1].
    { assert (Hm : nth_error (map fst vs1) i = Some a) by (rewrite HF; apply (map_nth_error fst) in Hi; exact Hi).
      destruct (nth_error vs1 i) as [[a1 p1]|] eqn:Hv.
      - apply (map_nth_error fst) in Hv. rewrite Hv in Hm. cbn in Hm. injection Hm as ->. eauto.
      - apply nth_error_None in Hv. assert (nth_error (map fst vs1) i = None) by (apply nth_error_None; rewrite map_length; assumption). congruence. }
    destruct (i_vars _ _ _ _ I1 _ _ _ Hi1) as (x1 & Hx1 & _).
    eapply HS; [exact Hi|exact Hx|exact Hx1|]. eapply HA; eassumption.
Qed.

(* the start: all variables NULL *)
Lemma inv_start : forall s vs, wf_state s -> Forall (fun v => snd v = None) vs -> inv (mem s) (mem s) vs (map (fun _ => None) vs).
Proof.
  intros s vs W HN. split.
  - now apply wf_cells.
  - lia.
  - intros p c Hp. exists c. split; [assumption|apply kept_refl].
  - apply map_length.
  - intros i a p Hi. exists None. split.
    + erewrite map_nth_error by eassumption. reflexivity.
    + rewrite Forall_forall in HN. specialize (HN _ (nth_error_In _ _ Hi)). cbn in HN. subst p. exact Logic.I.
  - intros i j a b p Hi Hj. rewrite Forall_forall in HN. specialize (HN _ (nth_error_In _ _ Hi)). discriminate HN.
  - intros p c Hge Hp _. apply nth_lt in Hp. lia.
Qed.
