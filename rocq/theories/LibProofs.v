(* What the public functions do, in the vocabulary of Vocab.v. *)
From Coq Require Import Arith NArith ZArith List Lia Bool.
From Verif Require Import Words Spec Tables Transform Machine Context Hash History WordFacts BlockFacts ShaFacts
  MachineFacts TransformFacts ContextFacts DigestFacts ReprFacts HashFacts HmacFacts HistoryFacts.
Import ListNotations.
Open Scope N_scope.
Arguments alg_of : simpl never.
Arguments N.mul : simpl never.
Arguments N.add : simpl never.
Arguments N.pow : simpl never.

(* ----------------------------------------------------------------- states *)

Lemma good_ctx_wf : forall a c, good_ctx a c <-> ctx_wf a c.
Proof.
  intros a c.
  assert (H1 : nh a = state_words a) by (destruct a; reflexivity).
  assert (H2 : wd a = word_bits a) by (destruct a; reflexivity).
  assert (H3 : a_bs (alg_of a) = block_size a) by (destruct a; reflexivity).
  assert (H4 : bsz a = N.to_nat (block_size a)) by (destruct a; reflexivity).
  unfold good_ctx. split.
  - intros (A & B & C & D & F & G). split; rewrite ?H3, ?H4; try assumption.
    split; rewrite ?H1; try assumption. unfold word. rewrite H2. assumption.
  - intros [[A B] C D F G]. rewrite H1, H3, H4 in *. unfold word in B. rewrite H2 in B. repeat split; assumption.
Qed.
Lemma good_wf : forall s, good_state s <-> wf_state s.
Proof.
  intros s. split; intros H p o Ho; specialize (H p o Ho); destruct o; try exact H; now apply good_ctx_wf.
Qed.

(* ------------------------------------------------------- effects on memory *)

Lemma no_leak_app : forall s m ns t er rs, length m = length (mem s) -> Forall (fun c => live c = false) ns ->
  no_leak s (mk_state (m ++ ns) t er rs).
Proof.
  intros s m ns t er rs HL HF p c Hp Hc. cbn [mem] in Hc. rewrite nth_error_app2 in Hc by lia.
  rewrite Forall_forall in HF. apply HF. eapply nth_error_In. eassumption.
Qed.
Lemma unchanged_app : forall s ns t er rs, unchanged s (mk_state (mem s ++ ns) t er rs).
Proof. intros s ns t er rs p c H. cbn [mem]. rewrite nth_error_app1 by (apply nth_error_Some; congruence). exact H. Qed.

Lemma nth_error_firstn' : forall A (l : list A) n i, (i < n)%nat -> nth_error (firstn n l) i = nth_error l i.
Proof. induction l; intros [|n] [|i] H; cbn; try lia; try reflexivity. apply IHl. lia. Qed.
Lemma nth_error_skipn' : forall A (l : list A) n i, nth_error (skipn n l) i = nth_error l (n + i).
Proof. induction l; intros [|n] i; cbn; try reflexivity; [now destruct i|]. apply IHl. Qed.

Lemma unchanged_but_app : forall s q l ch d n ns t er rs,
  nth_error (mem s) (fst q) = Some ch -> content ch = OBytes l ->
  length d = N.to_nat n -> snd q + n <= N.of_nat (length l) ->
  unchanged_but s (mk_state (setl (fst q) (OBytes (put l (snd q) d)) (mem s) ++ ns) t er rs) q n.
Proof.
  intros s q l ch d n ns t er rs Hq Hc Hd Hl p c Hp. cbn [mem].
  assert (Lp : (p < length (mem s))%nat) by (apply nth_error_Some; congruence).
  rewrite nth_error_app1 by (rewrite setl_length; exact Lp). split.
  - intros Hne. rewrite setl_nth_other by congruence. exact Hp.
  - intros ->. assert (c = ch) by congruence. subst c. exists l, (put l (snd q) d).
    split; [assumption|]. split; [apply (setl_nth_same _ _ _ _ Hq)|]. split; [apply put_length; lia|].
    intros i Hi. unfold put. destruct Hi as [Hi|Hi].
    + rewrite nth_error_app1 by (rewrite firstn_length; lia). apply nth_error_firstn'. lia.
    + rewrite nth_error_app2 by (rewrite firstn_length; lia). rewrite firstn_length, Nat.min_l by lia.
      rewrite nth_error_app2 by lia. rewrite nth_error_skipn'. f_equal. lia.
Qed.

(* --------------------------------------------------------------- calculate *)

Lemma ctx_error_args : forall E a buffer size hash hash_size,
  calculate_ctx_error E a buffer size hash hash_size = None <-> hash_args E a buffer size hash hash_size.
Proof.
  intros. unfold calculate_ctx_error, hash_args. rewrite digest_size_eq. split.
  - destruct (update_error E (Some 0%nat) buffer size) eqn:U; [discriminate|].
    destruct (finalize_error E a (Some 0%nat) hash hash_size) eqn:F; [discriminate|]. intros _.
    destruct (update_error_none _ _ _ _ U) as (? & ? & _ & -> & ?).
    destruct (finalize_error_none _ _ _ _ _ F) as (? & ? & _ & -> & ? & ?).
    split; [discriminate|]. split; [discriminate|]. split; [assumption|]. split; assumption.
  - intros (A & B & C & D & F). destruct buffer; [|congruence]. destruct hash; [|congruence].
    cbn [update_error finalize_error]. destruct (N.ltb_spec (ssize_max E) size); [lia|].
    rewrite checks_pass by assumption. reflexivity.
Qed.

Lemma errs_add_added : forall e s ks t m rs, ks <> [] -> errors_added e s (mk_state m t (errs_add e (errs s) ks) rs).
Proof. intros e s [|k ks] t m rs H; [congruence|]. unfold errors_added, errs_add. cbn [errs]. destruct e; eauto. Qed.

Lemma ctx_error_ne : forall E a b n h hn ks, calculate_ctx_error E a b n h hn = Some ks -> ks <> [].
Proof. intros * H. unfold calculate_ctx_error in H. destruct update_error; [|destruct finalize_error]; congruence. Qed.

Lemma zero_blank : forall a, blank (zero_ctx (alg_of a)).
Proof.
  intros a. repeat split; apply Forall_forall; intros x Hx; apply repeat_spec in Hx; congruence.
Qed.

Lemma calculate_full : forall E a buffer size hash hash_size e s,
  good_state s -> arg s buffer size -> arg s hash hash_size ->
  exists r s', calculate E a buffer size hash hash_size e s = Done r s' /\ no_leak s s' /\
  ((r = 1%Z /\ errors_same s s' /\ all_allocs_ok E s s' /\ hash_args E a buffer size hash hash_size /\
    exists bp hp, buffer = Some bp /\ hash = Some hp /\
    bytes_at s' hp (digest_size a) = cdig a (bytes_at s bp size) /\ unchanged_but s s' hp (digest_size a))
   \/
   (r = (-1)%Z /\ errors_added e s s' /\ unchanged s s' /\
    (some_alloc_failed E s s' \/ ~ hash_args E a buffer size hash hash_size))).
Proof.
  intros E a buffer size hash hash_size e s G HB HH. apply good_wf in G.
  destruct (calculate_cases E a buffer size hash hash_size e s G HB HH) as
    [(Eal & HR)|[(Eal & ks & c & fs & HE & Hfs & HR)|(Eal & HE & bp & hp & l & fs & -> & -> & Hl & Hfs & HR)]].
  - do 2 eexists. split; [exact HR|]. split.
    + intros p c Hp Hc. cbn [mem] in Hc. apply nth_lt in Hc. lia.
    + right. split; [reflexivity|]. split; [apply errs_add_added; discriminate|]. split.
      * intros p c Hc. exact Hc.
      * left. exists (tries s). cbn [tries]. split; [lia|assumption].
  - do 2 eexists. split; [exact HR|]. split.
    + apply no_leak_app; [reflexivity|apply Forall_cons; [reflexivity|apply Forall_nil]].
    + right. split; [reflexivity|]. split; [apply errs_add_added; eapply ctx_error_ne; eassumption|]. split; [apply unchanged_app|].
      right. intros HA. apply ctx_error_args in HA. congruence.
  - pose proof (proj1 (ctx_error_args _ _ _ _ _ _) HE) as HA. destruct HA as (_ & _ & A1 & A2 & A3).
    cbn [arg] in HH. destruct HH as (l1 & Hl1 & Hll). assert (l1 = l) by congruence. subst l1.
    apply get_obj_cell in Hl. destruct Hl as (ch & Hch & Hlv & Hco).
    assert (LD : length (cdig a (bytes_at s bp size)) = N.to_nat (digest_size a)) by (rewrite digest_size_eq; apply code_hash_length, iv_ok).
    do 2 eexists. split; [exact HR|]. split.
    + apply no_leak_app; [apply setl_length|apply Forall_cons; [reflexivity|apply Forall_nil]].
    + left. split; [reflexivity|]. split; [reflexivity|]. split.
      { intros i Hi. cbn [tries] in Hi. replace i with (tries s) by lia. assumption. }
      split; [now apply ctx_error_args|]. exists bp, hp. split; [reflexivity|]. split; [reflexivity|]. split.
      * eapply (bytes_put _ hp l); [|exact LD|lia].
        unfold get_obj. cbn [mem]. rewrite nth_error_app1 by (rewrite setl_length; eapply nth_lt; eassumption).
        rewrite (setl_nth_same _ _ _ _ Hch). cbn. now rewrite Hlv.
      * eapply unchanged_but_app; [exact Hch|exact Hco|exact LD|lia].
Qed.

(* ---------------------------------------------------------- calculate_hmac *)


Lemma wiped_zero : forall a, zero_cell (wiped a).
Proof. intros. apply Forall_forall. intros x Hx. apply repeat_spec in Hx. congruence. Qed.

Lemma entry_error_args : forall E a key key_size hmac_size,
  hmac_entry_error E a key key_size hmac_size = None <-> key <> None /\ key_size <= ssize_max E /\ digest_size a <= hmac_size.
Proof.
  intros. unfold hmac_entry_error. rewrite digest_size_eq. destruct key as [kp|].
  - destruct (N.ltb_spec (ssize_max E) key_size); [split; [discriminate|lia]|].
    destruct (N.ltb_spec hmac_size (a_hs (alg_of a))); [split; [discriminate|lia]|].
    split; [intros _; repeat split; congruence || lia|reflexivity].
  - split; [discriminate|intros (? & _); congruence].
Qed.

Lemma all_entry : forall E a key key_size buffer size hm hmac_size,
  hmac_entry_error E a key key_size hmac_size = None -> calculate_ctx_error E a buffer size hm hmac_size = None ->
  hmac_args E a key key_size buffer size hm hmac_size.
Proof.
  intros * H1 H2. apply entry_error_args in H1. apply ctx_error_args in H2. unfold hmac_args. tauto.
Qed.

Lemma hmac_full : forall E a key key_size buffer size hm hmac_size e s,
  good_state s -> arg s key key_size -> arg s buffer size -> arg s hm hmac_size ->
  exists r s', calculate_hmac E a key key_size buffer size hm hmac_size e s = Done r s' /\ no_leak s s' /\
  (forall p c l, (length (mem s) <= p)%nat -> nth_error (mem s') p = Some c -> knd c = Heap -> content c = OBytes l -> Forall (eq 0) l) /\
  ((r = 1%Z /\ errors_same s s' /\ all_allocs_ok E s s' /\ hmac_args E a key key_size buffer size hm hmac_size /\
    (forall p c, (length (mem s) <= p)%nat -> nth_error (mem s') p = Some c -> knd c = Heap -> zero_cell c) /\
    exists kp bp hp, key = Some kp /\ buffer = Some bp /\ hm = Some hp /\
    bytes_at s' hp (digest_size a) = cmac a (bytes_at s kp key_size) (bytes_at s bp size) /\ unchanged_but s s' hp (digest_size a) /\
    nth_error (mem s') (length (mem s)) = Some (mk_cell false Stack (OBytes
       (if key_size <=? block_size a then junk_bytes E (length (mem s)) (digest_size a) else cdig a (bytes_at s kp key_size)))))
   \/
   (r = (-1)%Z /\ errors_added e s s' /\
    (some_alloc_failed E s s' \/ ~ hmac_args E a key key_size buffer size hm hmac_size) /\
    (unchanged s s' \/
     (hmac_args E a key key_size buffer size hm hmac_size /\ some_alloc_failed E s s' /\
      exists kp bp hp, key = Some kp /\ buffer = Some bp /\ hm = Some hp /\ unchanged_but s s' hp (digest_size a) /\
      bytes_at s' hp (digest_size a) = code_inner a (code_hmac_key a (bytes_at s kp key_size)) (bytes_at s bp size))))).
Proof.
  intros E a key key_size buffer size hm hmac_size e s G HK HB HH. apply good_wf in G.
  destruct (hmac_st E a key key_size buffer size hm hmac_size e (mem s) (tries s) (errs s) (resid s)) as
    (r & old' & news' & khl & t' & ks & fs & HR & HL & Hfs & Ht & HE);
    try (apply wf_cells; assumption); try (apply argl_eq; assumption).
  rewrite <- st_of in HR. unfold st in HR. exists r. eexists. split; [exact HR|].
  assert (Hnew : forall p c, (length (mem s) <= p)%nat -> nth_error (old' ++ mk_cell false Stack (OBytes khl) :: news') p = Some c ->
                 c = mk_cell false Stack (OBytes khl) \/ In c news').
  { intros p c Hp Hc. rewrite nth_error_app2 in Hc by lia. destruct (p - length old')%nat as [|j]; cbn in Hc.
    - left. congruence.
    - right. eapply nth_error_In. eassumption. }
  assert (Hcl : Forall (clean_cell a) news').
  { assert (X : Forall (erased_cell a) news' -> Forall (clean_cell a) news').
    { intros X. eapply Forall_impl; [|exact X]. intros c. apply erased_clean. }
    destruct HE as [(_ & _ & Hn & _)|[(_ & _ & Hn & _)|(_ & _ & Hn & _)]]; auto. }
  split.
  { apply no_leak_app; [assumption|]. apply Forall_cons; [reflexivity|]. eapply clean_dead. eassumption. }
  split.
  { intros p c l Hp Hc Hk Hl. cbn [mem] in Hc. destruct (Hnew p c Hp Hc) as [-> |Hin]; [discriminate Hk|].
    rewrite Forall_forall in Hcl. destruct (Hcl c Hin) as [-> |[x ->]]; [|discriminate Hl].
    pose proof (wiped_zero a) as Z. unfold zero_cell in Z. rewrite Hl in Z. exact Z. }
  destruct HE as [(-> & -> & Hn & Ha & HE1 & HE2 & kp & bp & -> & -> & Hout & Hkh)|[(-> & Hk & Hn & -> & Hwhy)|(-> & Hk & Hn & Ha & HE1 & HE2 & kp & bp & -> & -> & Hout)]].
  - left. split; [reflexivity|]. pose proof (all_entry _ _ _ _ _ _ _ _ HE1 HE2) as HA.
    pose proof HA as (_ & A1 & _ & _ & A2 & A3 & A4).
    destruct Hout as (hp & l & ch & -> & Hch & Hlv & Hco & Hl & ->). rewrite !bytesl_eq in *.
    assert (LD : length (cmac a (bytes_at s kp key_size) (bytes_at s bp size)) = N.to_nat (digest_size a)) by (rewrite digest_size_eq; apply code_hash_length, iv_ok).
    split; [unfold errors_same, errs_add; cbn [errs]; destruct e; [now rewrite app_nil_r|reflexivity]|].
    split; [exact Ha|]. split; [exact HA|]. split.
    { intros p c Hp Hc Hk. cbn [mem] in Hc. destruct (Hnew p c Hp Hc) as [-> |Hin]; [discriminate Hk|].
      rewrite Forall_forall in Hn. destruct (Hn c Hin) as [-> | ->]; [apply wiped_zero|apply zero_blank]. }
    exists kp, bp, hp. split; [reflexivity|]. split; [reflexivity|]. split; [reflexivity|]. split.
    { eapply (bytes_put _ hp l); [|exact LD|lia].
      unfold get_obj. cbn [mem]. rewrite nth_error_app1 by (rewrite setl_length; eapply nth_lt; eassumption).
      rewrite (setl_nth_same _ _ _ _ Hch). cbn. now rewrite Hlv. }
    split.
    { eapply unchanged_but_app; [exact Hch|exact Hco|exact LD|lia]. }
    cbn [mem]. rewrite nth_error_app2 by lia. rewrite HL, Nat.sub_diag. cbn [nth_error].
    rewrite <- (block_size_eq a), <- (digest_size_eq a) in Hkh. unfold cdig. do 3 f_equal. exact Hkh.
  - right. split; [reflexivity|]. split; [now apply errs_add_added|]. split.
    { destruct Hwhy as [Hw|[Hw|Hw]]; [right|right|now left]; intros HA; apply Hw; destruct HA as (X1 & X2 & X3).
      - apply entry_error_args. destruct X3 as (_ & _ & _ & X3 & _). auto.
      - now apply ctx_error_args. }
    left. apply unchanged_app.
  - right. split; [reflexivity|]. split; [now apply errs_add_added|]. split; [now left|].
    right. pose proof (all_entry _ _ _ _ _ _ _ _ HE1 HE2) as HA. split; [exact HA|]. split; [exact Ha|].
    pose proof HA as (_ & A1 & _ & _ & A2 & A3 & A4).
    destruct Hout as (hp & l & ch & -> & Hch & Hlv & Hco & Hl & ->). rewrite !bytesl_eq in *.
    match goal with |- context [put l (snd hp) ?D] => assert (LD : length D = N.to_nat (digest_size a)) by (rewrite digest_size_eq; apply code_hash_length, iv_ok) end.
    exists kp, bp, hp. split; [reflexivity|]. split; [reflexivity|]. split; [reflexivity|]. split.
    { eapply unchanged_but_app; [exact Hch|exact Hco|exact LD|lia]. }
    eapply (bytes_put _ hp l); [|exact LD|lia].
    unfold get_obj. cbn [mem]. rewrite nth_error_app1 by (rewrite setl_length; eapply nth_lt; eassumption).
    rewrite (setl_nth_same _ _ _ _ Hch). cbn. now rewrite Hlv.
Qed.

(* ------------------------------------------------------- context functions *)

Lemma update_full : forall E old a p b n e s, good_state s -> ctx_arg s a p -> arg s b n ->
  exists r s', do_update E old a p b n e s = Done r s' /\
  ((r = 1%Z /\ n <= ssize_max E /\ exists q bp c fs, p = Some q /\ b = Some bp /\ get_obj s q = Some (OCtx a c) /\
    Forall (frame_clean a) fs /\ s' = add_frames fs (set_obj q (OCtx a (update_fn a c (bytes_at s bp n))) s))
   \/ (r = (-1)%Z /\ (p = None \/ b = None \/ ssize_max E < n) /\ errors_added e s s' /\
       mem s' = mem s /\ tries s' = tries s /\ resid s' = resid s)).
Proof.
  intros E old a p b n e s G HP HB. apply good_wf in G.
  destruct (update_error E p b n) as [k|] eqn:U.
  - pose proof (update_rejects E a p b n e s k U) as HR.
    assert (W : p = None \/ b = None \/ ssize_max E < n).
    { destruct p; [|auto]. destruct b; [|auto]. cbn in U. destruct (N.ltb_spec (ssize_max E) n); [auto|discriminate]. }
    destruct old; cbn [do_update].
    + unfold hash_update. erewrite bind_done by exact HR. cbn [Z.eqb]. rewrite fail_eq. do 2 eexists. split; [reflexivity|].
      right. split; [reflexivity|]. split; [exact W|]. split; [|auto].
      unfold errors_added, add_err. destruct e; cbn [errs]; [|reflexivity]. rewrite <- app_assoc. cbn. eauto.
    + rewrite HR. do 2 eexists. split; [reflexivity|].
      right. split; [reflexivity|]. split; [exact W|]. split; [|auto].
      unfold errors_added, add_err. destruct e; cbn [errs]; eauto.
  - destruct (update_error_none _ _ _ _ U) as (q & bp & -> & -> & Hn). destruct HP as [c Hc].
    destruct (context_update_ok E a q bp n e s c G Hc HB Hn) as (fs & Hfs & HR).
    assert (HD : do_update E old a (Some q) (Some bp) n e s = Done 1%Z (add_frames fs (set_obj q (OCtx a (update_fn a c (bytes_at s bp n))) s))).
    { destruct old; cbn [do_update]; [|exact HR]. unfold hash_update. erewrite bind_done by exact HR. reflexivity. }
    do 2 eexists. split; [exact HD|]. left. split; [reflexivity|]. split; [assumption|]. exists q, bp, c, fs. auto.
Qed.

Lemma finalize_full : forall E old a p h n e s, good_state s -> ctx_arg s a p -> arg s h n ->
  exists r s', do_finalize E old a p h n e s = Done r s' /\
  ((r = 1%Z /\ digest_size a <= n <= ssize_max E /\ exists q hp c l f, p = Some q /\ h = Some hp /\ get_obj s q = Some (OCtx a c) /\
    get_obj s (fst hp) = Some (OBytes l) /\ frame_clean a f /\ q <> fst hp /\
    s' = add_frames [f] (set_obj q (OCtx a (zero_ctx (alg_of a))) (set_obj (fst hp) (OBytes (put l (snd hp) (digest_fn a c))) s)))
   \/ (r = (-1)%Z /\ (p = None \/ h = None \/ n < digest_size a \/ ssize_max E < n) /\ errors_added e s s' /\
       mem s' = mem s /\ tries s' = tries s /\ resid s' = resid s)).
Proof.
  intros E old a p h n e s G HP HH. apply good_wf in G.
  destruct (finalize_error E a p h n) as [k|] eqn:U.
  - pose proof (finalize_rejects E a p h n e s k U) as HR.
    assert (W : p = None \/ h = None \/ n < digest_size a \/ ssize_max E < n).
    { destruct p; [|auto]. destruct h; [|auto]. cbn in U. rewrite digest_size_eq.
      destruct (N.lt_ge_cases n (a_hs (alg_of a))); [auto|]. destruct (N.lt_ge_cases (ssize_max E) n); [auto|].
      rewrite checks_pass in U by assumption. discriminate. }
    destruct old; cbn [do_finalize].
    + unfold hash_finalize. erewrite bind_done by exact HR. cbn [Z.eqb]. rewrite fail_eq. do 2 eexists. split; [reflexivity|].
      right. split; [reflexivity|]. split; [exact W|]. split; [|auto].
      unfold errors_added, add_err. destruct e; cbn [errs]; [|reflexivity]. rewrite <- app_assoc. cbn. eauto.
    + rewrite HR. do 2 eexists. split; [reflexivity|].
      right. split; [reflexivity|]. split; [exact W|]. split; [|auto].
      unfold errors_added, add_err. destruct e; cbn [errs]; eauto.
  - destruct (finalize_error_none _ _ _ _ _ U) as (q & hp & -> & -> & Hn1 & Hn2). destruct HP as [c Hc].
    cbn [arg] in HH. destruct HH as (l & Hl & Hll).
    destruct (context_finalize_ok E a q hp n e s c l G Hc Hl) as (f & Hf & HR); try assumption; try lia.
    match type of HR with _ = ?R => assert (HD : do_finalize E old a (Some q) (Some hp) n e s = R) end.
    { destruct old; cbn [do_finalize]; [|exact HR]. unfold hash_finalize. erewrite bind_done by exact HR. reflexivity. }
    do 2 eexists. split; [exact HD|]. left. split; [reflexivity|]. split; [rewrite digest_size_eq; auto|].
    exists q, hp, c, l, f. do 5 (split; [assumption||reflexivity|]). split; [congruence|reflexivity].
Qed.

Lemma initialize_full : forall E old a v e s,
  exists r v' s', do_initialize E old a v e s = Done (r, v') s' /\
  ((r = 1%Z /\ v = Some None /\ alloc_ok E (tries s) = true /\ v' = Some (length (mem s)) /\ s' = tick (new_cell Heap (OCtx a (init_ctx a)) s))
   \/ (r = (-1)%Z /\ (v = None \/ (exists q, v = Some (Some q)) \/ (v = Some None /\ alloc_ok E (tries s) = false)) /\
       v' = match v with Some w => w | None => None end /\ errors_added e s s' /\ mem s' = mem s /\ resid s' = resid s /\
       tries s' = (match v with Some None => S (tries s) | _ => tries s end))).
Proof.
  intros E old a v e s.
  assert (X : forall s1 ks, ks <> [] -> errs s1 = errs s ++ ks -> errors_added true s s1).
  { intros s1 [|k ks] Hk Hs; [congruence|]. unfold errors_added. eauto. }
  destruct v as [[q|]|].
  - destruct old; cbn [do_initialize]; do 3 eexists; (split; [reflexivity|]); right; (split; [reflexivity|]); (split; [eauto|]);
      (split; [reflexivity|]); (split; [|auto]); destruct e; try reflexivity; unfold errors_added; cbn [errs error_set fail bind];
      cbn; rewrite <- ?app_assoc; cbn [app]; eauto.
  - pose proof (initialize_eq E a e s) as HR. destruct (alloc_ok E (tries s)) eqn:A.
    + assert (HD : do_initialize E old a (Some None) e s = Done (1%Z, Some (length (mem s))) (tick (new_cell Heap (OCtx a (init_ctx a)) s))).
      { destruct old; cbn [do_initialize]; [|exact HR]. unfold hash_initialize. erewrite bind_done by exact HR. reflexivity. }
      do 3 eexists. split; [exact HD|]. left. auto.
    + destruct old; cbn [do_initialize].
      * unfold hash_initialize. erewrite bind_done by exact HR. cbn [fst snd Z.eqb]. do 3 eexists. split; [reflexivity|].
        right. split; [reflexivity|]. split; [auto|]. split; [reflexivity|]. split; [|auto].
        destruct e; [|reflexivity]. eapply X; [|cbn [errs tick add_err]; rewrite <- app_assoc; reflexivity]. discriminate.
      * do 3 eexists. split; [exact HR|]. right. split; [reflexivity|]. split; [auto|]. split; [reflexivity|]. split; [|auto].
        destruct e; [|reflexivity]. eapply X; [|reflexivity]. discriminate.
  - destruct old; cbn [do_initialize]; do 3 eexists; (split; [reflexivity|]); right; (split; [reflexivity|]); (split; [eauto|]);
      (split; [reflexivity|]); (split; [|auto]); destruct e; try reflexivity; unfold errors_added; cbn [errs error_set fail bind];
      cbn; rewrite <- ?app_assoc; cbn [app]; eauto.
Qed.


Lemma free_full : forall old a v e s, (forall q, v = Some (Some q) -> heap_ctx s a q) ->
  exists r v' s', do_free old a v e s = Done (r, v') s' /\ v' = None /\ tries s' = tries s /\ resid s' = resid s /\
  ((r = 1%Z /\ v <> None /\ errors_same s s' /\
    (v = Some None -> s' = s) /\
    (forall q, v = Some (Some q) -> get_obj s' q = None /\ forall p, p <> q -> nth_error (mem s') p = nth_error (mem s) p))
   \/ (r = (-1)%Z /\ v = None /\ errors_added e s s' /\ mem s' = mem s)).
Proof.
  intros old a v e s HV. destruct v as [[q|]|].
  - destruct (HV q eq_refl) as [c Hc].
    assert (HR : do_free old a (Some (Some q)) e s = Done (1%Z, None) (set_mem (replace (mem s) q (mk_cell false Heap (OCtx a c))) s)).
    { destruct old; cbn [do_free]; unfold hash_free, context_free, mfree, bind; rewrite Hc; reflexivity. }
    do 3 eexists. split; [exact HR|]. do 3 (split; [reflexivity|]). left. split; [reflexivity|]. split; [discriminate|].
    split; [reflexivity|]. split; [discriminate|]. intros q' Hq. injection Hq as <-. split.
    + unfold get_obj. cbn [set_mem mem]. rewrite replace_same by (eapply nth_lt; eassumption). reflexivity.
    + intros p Hp. cbn [set_mem mem]. apply replace_other. congruence.
  - destruct old; do 3 eexists; (split; [reflexivity|]); do 3 (split; [reflexivity|]); left; (split; [reflexivity|]); (split; [discriminate|]);
      (split; [reflexivity|]); (split; [reflexivity|]); discriminate.
  - destruct old; do 3 eexists; (split; [reflexivity|]); do 3 (split; [reflexivity|]); right; (split; [reflexivity|]); (split; [reflexivity|]);
      (split; [|reflexivity]); unfold errors_added; destruct e; try reflexivity; cbn [errs]; rewrite <- ?app_assoc; cbn [app]; eauto.
Qed.

(* ------------------------------------------------------ one message, many updates *)

Lemma pieces_st : forall E a old xs t er rs c m q,
  q = length old -> Forall cell_ok old -> ctx_repr a (a_iv (alg_of a)) 0 c m ->
  Forall (fun x => argl old (Some (pc_ptr x)) (pc_size x) /\ pc_size x <= ssize_max E) xs ->
  exists rs' c', run E (map piece_call xs) [(a, Some q)] (st old [mk_cell true Heap (OCtx a c)] t er rs) =
    Done (map (fun x => OUpdate 0 (bytesl old (pc_ptr x) (pc_size x)) 1) xs, [(a, Some q)])
         (st old [mk_cell true Heap (OCtx a c')] t er rs') /\
  ctx_repr a (a_iv (alg_of a)) 0 c' (m ++ concat (map (fun x => bytesl old (pc_ptr x) (pc_size x)) xs)).
Proof.
  intros E a old xs. induction xs as [|x xs IH]; intros t er rs c m q -> Ho Hc HF.
  - exists rs, c. split; [reflexivity|]. cbn [map concat]. now rewrite app_nil_r.
  - inversion HF as [|? ? [Hx1 Hx2] HF']; subst.
    destruct (argl_st old [mk_cell true Heap (OCtx a c)] t er rs _ _ Hx1) as [Hacc Hb].
    assert (Hn : Forall cell_ok [mk_cell true Heap (OCtx a c)]).
    { apply Forall_cons; [|apply Forall_nil]. intros _. exact (re_wf _ _ _ _ _ Hc). }
    destruct (update_st E a (pc_e x) old [mk_cell true Heap (OCtx a c)] t er rs 0 c (pc_ptr x) (pc_size x)) as (fs & _ & HU);
      try assumption; [reflexivity|].
    rewrite Hb, Nat.add_0_r in HU. cbn [replace] in HU.
    set (c1 := update_fn a c (bytesl old (pc_ptr x) (pc_size x))) in *.
    assert (Hc1 : ctx_repr a (a_iv (alg_of a)) 0 c1 (m ++ bytesl old (pc_ptr x) (pc_size x))).
    { apply update_repr; [assumption|]. apply argl_bytes; assumption. }
    destruct (IH t er (rs ++ fs) c1 _ _ eq_refl Ho Hc1 HF') as (rs' & c' & HR & HC).
    exists rs', c'. split; [|rewrite <- app_assoc in HC; exact HC].
    assert (HD : do_update E (pc_old x) a (Some (length old)) (Some (pc_ptr x)) (pc_size x) (pc_e x) (st old [mk_cell true Heap (OCtx a c)] t er rs)
                 = Done 1%Z (st old [mk_cell true Heap (OCtx a c1)] t er (rs ++ fs))).
    { destruct (pc_old x); cbn [do_update]; [|exact HU]. unfold hash_update. erewrite bind_done by exact HU. reflexivity. }
    cbn [map run]. unfold piece_call at 1. cbn [run_call nth_error lift fst snd].
    rewrite bind_assoc, bind_ret, bind_assoc. unfold peek at 1. unfold bind at 1. rewrite Hb.
    rewrite bind_assoc. erewrite bind_done by exact HD. rewrite bind_ret. cbn [fst snd].
    erewrite bind_done by exact HR. reflexivity.
Qed.

Lemma run_app : forall E h1 h2 vs s, run E (h1 ++ h2) vs s =
  (q <- run E h1 vs ;; r <- run E h2 (snd q) ;; ret (fst q ++ fst r, snd r)) s.
Proof.
  intros E h1. induction h1 as [|c h1 IH]; intros h2 vs s.
  - cbn [app run]. rewrite bind_ret. cbn [fst snd app]. unfold bind. destruct (run E h2 vs s) as [[o v] s'|]; reflexivity.
  - cbn [app run]. unfold bind at 1. symmetry. rewrite bind_assoc. unfold bind at 1. symmetry.
    destruct (run_call E c vs s) as [r s1|]; [|reflexivity].
    rewrite bind_assoc. unfold bind at 1. rewrite IH. unfold bind at 1. symmetry. unfold bind at 1.
    destruct (run E h1 (snd r) s1) as [q s2|]; [|reflexivity]. rewrite bind_ret. cbn [fst snd]. unfold bind.
    destruct (run E h2 (snd q) s2) as [q' s3|]; reflexivity.
Qed.

Lemma whole_ok : forall E a oi of ei ef xs hp hash_size s,
  good_state s -> Forall (fun x => arg s (Some (pc_ptr x)) (pc_size x) /\ pc_size x <= ssize_max E) xs ->
  arg s (Some hp) hash_size -> digest_size a <= hash_size <= ssize_max E -> alloc_ok E (tries s) = true ->
  exists s' q c m, run E (whole_message oi of ei ef xs hp hash_size) [(a, None)] s =
    Done (OInitialize 0 1 :: map (fun x => OUpdate 0 (piece_bytes s x) 1) xs ++ [OFinalize 0 (cdig a (concat (map (piece_bytes s) xs))) 1], [(a, Some q)]) s' /\
    bytes_at s' hp (digest_size a) = cdig a (concat (map (piece_bytes s) xs)) /\
    (* the context before finalize *)
    (exists s1, run E (CInitialize oi (Var 0) ei :: map piece_call xs) [(a, None)] s = Done (m, [(a, Some q)]) s1 /\
       get_obj s1 q = Some (OCtx a c) /\ c_boff c < block_size a /\
       (c_count c + c_boff c) mod 2 ^ 64 = N.of_nat (length (concat (map (piece_bytes s) xs))) mod 2 ^ 64).
Proof.
  intros E a oi of ei ef xs hp hash_size s G HX HH [Hs1 Hs2] HA. apply good_wf in G.
  pose proof (proj1 (wf_cells s) G) as Ho.
  assert (HI : do_initialize E oi a (Some None) ei s = Done (1%Z, Some (length (mem s)))
     (st (mem s) [mk_cell true Heap (OCtx a (init_ctx a))] (S (tries s)) (errs s) (resid s))).
  { pose proof (initialize_eq E a ei s) as HR. rewrite HA in HR.
    destruct oi; cbn [do_initialize]; [|exact HR]. unfold hash_initialize. erewrite bind_done by exact HR. reflexivity. }
  destruct (pieces_st E a (mem s) xs (S (tries s)) (errs s) (resid s) (init_ctx a) [] (length (mem s)) eq_refl Ho (init_repr a)) as (rs' & c' & HR & HC).
  { eapply Forall_impl; [|exact HX]. intros x [X1 X2]. split; [|assumption]. now apply argl_eq. }
  assert (EQ : map (fun x => bytesl (mem s) (pc_ptr x) (pc_size x)) xs = map (piece_bytes s) xs).
  { apply map_ext. intros x. apply bytesl_eq. }
  cbn [app] in HC. rewrite EQ in HC.
  cbn [arg] in HH. destruct HH as (l & Hl & Hll). pose proof (get_obj_lt _ _ _ Hl) as Hlt.
  assert (Hn : Forall cell_ok [mk_cell true Heap (OCtx a c')]).
  { apply Forall_cons; [|apply Forall_nil]. intros _. exact (re_wf _ _ _ _ _ HC). }
  rewrite digest_size_eq in *.
  destruct (finalize_st E a ef (mem s) [mk_cell true Heap (OCtx a c')] (S (tries s)) (errs s) rs' 0 c' hp hash_size l) as (f & _ & HF);
    try assumption; try reflexivity; try lia.
  { apply get_st_old. exact (get_obj_cell _ _ _ Hl). }
  rewrite Nat.add_0_r in HF. cbn [replace] in HF. rewrite (digest_repr _ _ _ _ _ HC) in HF.
  match type of HF with _ = Done _ ?S => set (s2 := S) in * end.
  assert (HD : do_finalize E of a (Some (length (mem s))) (Some hp) hash_size ef (st (mem s) [mk_cell true Heap (OCtx a c')] (S (tries s)) (errs s) rs')
               = Done 1%Z s2).
  { destruct of; cbn [do_finalize]; [|exact HF]. unfold hash_finalize. erewrite bind_done by exact HF. reflexivity. }
  assert (HB : bytes_at s2 hp (a_hs (alg_of a)) = cdig a (concat (map (piece_bytes s) xs))).
  { apply get_obj_cell in Hl. destruct Hl as (ch & Hch & Hlv & Hco).
    eapply (bytes_put _ hp l); [|apply code_hash_length, iv_ok|lia].
    unfold s2, get_obj, st. cbn [mem]. rewrite nth_error_app1 by (rewrite setl_length; assumption).
    rewrite (setl_nth_same _ _ _ _ Hch). cbn. now rewrite Hlv. }
  assert (HRI : forall k, run E (CInitialize oi (Var 0) ei :: k) [(a, None)] s =
    (q <- run E k [(a, Some (length (mem s)))] ;; ret (OInitialize 0 1 :: fst q, snd q)) (st (mem s) [mk_cell true Heap (OCtx a (init_ctx a))] (S (tries s)) (errs s) (resid s))).
  { intros k. cbn [run run_call nth_error lift]. rewrite bind_assoc, bind_ret. cbn [fst snd]. rewrite bind_assoc. erewrite bind_done by exact HI.
    rewrite bind_ret. cbn [fst snd replace]. reflexivity. }
  assert (EQ2 : map (fun x => OUpdate 0 (bytesl (mem s) (pc_ptr x) (pc_size x)) 1) xs = map (fun x => OUpdate 0 (piece_bytes s x) 1) xs).
  { apply map_ext. intros x. unfold piece_bytes. now rewrite bytesl_eq. }
  rewrite EQ2 in HR.
  exists s2, (length (mem s)), c', (OInitialize 0 1 :: map (fun x => OUpdate 0 (piece_bytes s x) 1) xs). split; [|split; [exact HB|]].
  - unfold whole_message. rewrite HRI. unfold bind at 1. rewrite run_app. erewrite bind_done by exact HR. cbn [fst snd].
    cbn [run run_call nth_error lift]. rewrite !bind_assoc, bind_ret, bind_assoc. cbn [fst snd].
    erewrite bind_done by exact HD. unfold peek_if, peek. cbn [Z.eqb Pos.eqb]. rewrite bind_assoc. unfold bind at 1.
    rewrite digest_size_eq. setoid_rewrite HB. reflexivity.
  - eexists. split.
    + rewrite HRI. erewrite bind_done by exact HR. reflexivity.
    + split.
      * rewrite <- (Nat.add_0_r (length (mem s))). eapply get_st_new. reflexivity.
      * split; [change (block_size a) with (hmac_block_size a); replace (hmac_block_size a) with (a_bs (alg_of a)) by (destruct a; reflexivity); exact (wf_boff _ _ (re_wf _ _ _ _ _ HC))|].
        rewrite (re_count _ _ _ _ _ HC), (re_boff _ _ _ _ _ HC), N.add_mod_idemp_l by discriminate. f_equal.
        pose proof (dn_le a (length (concat (map (piece_bytes s) xs)))). lia.
Qed.
