(* The two build variants behave the same: every computation that is defined in one
   variant has the same result and the same effect in the other. *)
From Coq Require Import Arith NArith ZArith List Lia Bool.
From Verif Require Import Words Spec Tables Transform Machine Vocab Context Hash History WordFacts BlockFacts ShaFacts MachineFacts
  TransformFacts ContextFacts DigestFacts ReprFacts HashFacts HmacFacts HistoryFacts LibProofs.
Import ListNotations.
Open Scope N_scope.

(* the same environment with the other build option *)
Definition rebuild (b : bool) (E : env) : env := mk_env b (plat64 E) (alloc_ok E) (junk E) (stack_junk E).

(* ------------------------------------------------------------ block level *)
Lemma ofold_in : forall A B (f : A -> B -> option A) l a r b, ofold f l a = Some r -> In b l -> exists a', f a' b <> None.
Proof.
  induction l as [|x l IH]; intros a r b H HI; [destruct HI|]. cbn [ofold] in H. destruct (f a x) as [a'|] eqn:F; [|discriminate].
  cbn [obind] in H. destruct HI as [->|HI]; [exists a; congruence|eauto].
Qed.
Lemma copy_to_len : forall w order buf off k, copy_to_uint w order buf off <> None -> In k order ->
  (N.to_nat (off + k) < length buf)%nat.
Proof.
  intros w order buf off k H HI. destruct order as [|k0 rest]; [destruct HI|]. cbn [copy_to_uint] in H.
  destruct (bget buf (off + k0)) as [v|] eqn:B; [|now elim H]. cbn [obind] in H. destruct HI as [->|HI].
  - apply nth_error_Some. unfold bget in B. congruence.
  - destruct (ofold _ rest v) as [r|] eqn:F; [|now elim H].
    destruct (ofold_in _ _ _ _ _ _ _ F HI) as (a' & G). cbn beta in G. destruct (bget buf (off + k)) eqn:B'; [|now elim G].
    apply nth_error_Some. unfold bget in B'. congruence.
Qed.
Lemma copy_16x_len : forall w order table buf off values r k, copy_16x w order table buf off values = Some r ->
  In 15%nat table -> In k order -> (N.to_nat (off + w / 8 * 15 + k) < length buf)%nat.
Proof.
  intros w order table buf off values r k H HI HK. unfold copy_16x in H.
  destruct (ofold_in _ _ _ _ _ _ _ H HI) as (a' & G). cbn beta in G.
  eapply copy_to_len; [|exact HK]. intros Z. apply G. change (N.of_nat 15) with 15. rewrite Z. reflexivity.
Qed.
Lemma copy_loop_len : forall w order n j buf off values r k,
  ofold (fun st i => let '(off, vals) := st in v <-? copy_to_uint w order buf off; vals' <-? aset vals i v; Some (off + w / 8, vals'))
    (seq j (S n)) (off, values) = Some r -> In k order -> (N.to_nat (off + w / 8 * N.of_nat n + k) < length buf)%nat.
Proof.
  induction n as [|n IH]; intros j buf off values r k H HK; rewrite <- cons_seq in H; cbn [ofold] in H;
    destruct (copy_to_uint w order buf off) as [v|] eqn:C; try discriminate; cbn [obind] in H.
  - rewrite N.mul_0_r, N.add_0_r. apply (copy_to_len w order); [congruence|exact HK].
  - destruct (aset values j v); [|discriminate]. cbn [obind] in H. specialize (IH _ _ _ _ _ _ H HK). lia.
Qed.
Lemma copy_loop_len16 : forall w order buf off values r k, copy_loop w order buf off values = Some r -> In k order ->
  (N.to_nat (off + w / 8 * 15 + k) < length buf)%nat.
Proof. intros w order buf off values r k H HK. exact (copy_loop_len w order 15 0 buf off values r k H HK). Qed.

Lemma block_len : forall a u buf off h values r, a_block (alg_of a) u buf off h values = Some r ->
  (N.to_nat off + bsz a <= length buf)%nat.
Proof.
  assert (X : forall w (order : list N) (table : list nat) k, In k order -> In 15%nat table -> forall buf off values,
    (copy_16x w order table buf off values <> None \/ copy_loop w order buf off values <> None) ->
    (N.to_nat (off + w / 8 * 15 + k) < length buf)%nat).
  { intros w order table k HK HI buf off values [H|H].
    - destruct (copy_16x w order table buf off values) eqn:C; [|now elim H]. eapply copy_16x_len; eassumption.
    - destruct (copy_loop w order buf off values) eqn:C; [|now elim H]. eapply copy_loop_len16; eassumption. }
  intros a u buf off h values r H. destruct a.
  - pose proof (X 32 order_le32 copy_16x_uint32_little 3 (or_introl eq_refl)) as Y. change (bsz MD5) with 64%nat.
    assert (I15 : In 15%nat copy_16x_uint32_little) by (cbn; tauto). specialize (Y I15 buf off values).
    change (32 / 8 * 15) with 60 in Y. assert (Z : (N.to_nat (off + 60 + 3) < length buf)%nat); [apply Y|lia].
    change (a_block (alg_of MD5)) with md5_block in H. unfold md5_block in H. cbn zeta in H. destruct u.
    + left. destruct (copy_16x _ _ _ _ _ _); [discriminate|cbn in H; discriminate].
    + right. destruct (copy_loop _ _ _ _ _); [discriminate|cbn in H; discriminate].
  - assert (K3 : In 3 order_be32) by (cbn; tauto). pose proof (X 32 order_be32 copy_16x_uint32_big 3 K3) as Y. change (bsz SHA1) with 64%nat.
    assert (I15 : In 15%nat copy_16x_uint32_big) by (cbn; tauto). specialize (Y I15 buf off values).
    change (32 / 8 * 15) with 60 in Y. assert (Z : (N.to_nat (off + 60 + 3) < length buf)%nat); [apply Y|lia].
    change (a_block (alg_of SHA1)) with sha1_block in H. unfold sha1_block in H. cbn zeta in H. destruct u.
    + left. destruct (copy_16x _ _ _ _ _ _); [discriminate|cbn in H; discriminate].
    + right. destruct (copy_loop _ _ _ _ _); [discriminate|cbn in H; discriminate].
  - assert (K3 : In 3 order_be32) by (cbn; tauto). pose proof (X 32 order_be32 copy_16x_uint32_big 3 K3) as Y. change (bsz SHA224) with 64%nat.
    assert (I15 : In 15%nat copy_16x_uint32_big) by (cbn; tauto). specialize (Y I15 buf off values).
    change (32 / 8 * 15) with 60 in Y. assert (Z : (N.to_nat (off + 60 + 3) < length buf)%nat); [apply Y|lia].
    change (a_block (alg_of SHA224)) with (sha2_block sha224_code) in H. unfold sha2_block in H. cbn zeta in H.
    change (k_w sha224_code) with 32 in H. change (k_order sha224_code) with order_be32 in H.
    change (k_copy16 sha224_code) with copy_16x_uint32_big in H. destruct u.
    + left. destruct (copy_16x _ _ _ _ _ _); [discriminate|cbn in H; discriminate].
    + right. destruct (copy_loop _ _ _ _ _); [discriminate|cbn in H; discriminate].
  - assert (K3 : In 3 order_be32) by (cbn; tauto). pose proof (X 32 order_be32 copy_16x_uint32_big 3 K3) as Y. change (bsz SHA256) with 64%nat.
    assert (I15 : In 15%nat copy_16x_uint32_big) by (cbn; tauto). specialize (Y I15 buf off values).
    change (32 / 8 * 15) with 60 in Y. assert (Z : (N.to_nat (off + 60 + 3) < length buf)%nat); [apply Y|lia].
    change (a_block (alg_of SHA256)) with (sha2_block sha256_code) in H. unfold sha2_block in H. cbn zeta in H.
    change (k_w sha256_code) with 32 in H. change (k_order sha256_code) with order_be32 in H.
    change (k_copy16 sha256_code) with copy_16x_uint32_big in H. destruct u.
    + left. destruct (copy_16x _ _ _ _ _ _); [discriminate|cbn in H; discriminate].
    + right. destruct (copy_loop _ _ _ _ _); [discriminate|cbn in H; discriminate].
  - assert (K7 : In 7 order_be64) by (cbn; tauto). pose proof (X 64 order_be64 copy_16x_uint64_big 7 K7) as Y. change (bsz SHA512) with 128%nat.
    assert (I15 : In 15%nat copy_16x_uint64_big) by (cbn; tauto). specialize (Y I15 buf off values).
    change (64 / 8 * 15) with 120 in Y. assert (Z : (N.to_nat (off + 120 + 7) < length buf)%nat); [apply Y|lia].
    change (a_block (alg_of SHA512)) with (sha2_block sha512_code) in H. unfold sha2_block in H. cbn zeta in H.
    change (k_w sha512_code) with 64 in H. change (k_order sha512_code) with order_be64 in H.
    change (k_copy16 sha512_code) with copy_16x_uint64_big in H. destruct u.
    + left. destruct (copy_16x _ _ _ _ _ _); [discriminate|cbn in H; discriminate].
    + right. destruct (copy_loop _ _ _ _ _); [discriminate|cbn in H; discriminate].
Qed.

Lemma block_same : forall a u b buf off h values r, Forall is_byte buf -> hash_ok a h -> length values = a_nv (alg_of a) ->
  a_block (alg_of a) u buf off h values = Some r ->
  a_block (alg_of a) b buf off h values = Some r /\ hash_ok a (snd (fst (fst r))) /\ length (snd r) = a_nv (alg_of a).
Proof.
  intros a u b buf off h values r HF Hh Hv H. pose proof (block_len a u buf off h values r H) as Hl.
  rewrite (block_ok a u) in H by assumption. rewrite (block_ok a b) by assumption. split; [exact H|].
  injection H as <-. cbn [fst snd]. split; [apply compress_ok|]. apply words_length, slice_length. lia.
Qed.

Lemma loop_same : forall a E b k buf off size h hv values r, Forall is_byte buf -> hash_ok a h -> length values = a_nv (alg_of a) ->
  transform_loop E (alg_of a) k buf off size h hv values = Some r ->
  transform_loop (rebuild b E) (alg_of a) k buf off size h hv values = Some r /\ hash_ok a (snd (fst (fst r))).
Proof.
  intros a E b k. induction k; intros buf off size h hv values r HF Hh Hv H; cbn [transform_loop] in *;
    destruct (size <? a_bs (alg_of a)); try discriminate.
  - injection H as <-. split; [reflexivity|exact Hh].
  - injection H as <-. split; [reflexivity|exact Hh].
  - destruct (a_block (alg_of a) (unrolled E) buf off h values) as [q|] eqn:B; [|discriminate]. cbn [obind] in H.
    destruct (block_same a _ b buf off h values q HF Hh Hv B) as (B' & H1 & H2).
    change (unrolled (rebuild b E)) with b. rewrite B'. cbn [obind].
    destruct q as (((off', h'), hv'), values'). cbn [fst snd] in H1, H2. now apply IHk.
Qed.

(* --------------------------------------------------------- simulation rules *)
Definition weak_obj (o : obj) : Prop :=
  match o with OBytes l => Forall is_byte l | OCtx a c => hash_ok a (c_hash c) /\ Forall is_byte (c_block c) | OPtr _ => True end.
Definition weak (s : state) : Prop := forall p o, get_obj s p = Some o -> weak_obj o.

Definition sim {A} (m m' : M A) (Q : A -> Prop) : Prop :=
  forall s r s', weak s -> m s = Done r s' -> m' s = Done r s' /\ weak s' /\ Q r.
Definition any {A} (_ : A) : Prop := True.

Lemma sim_bind : forall A B (m m' : M A) (f f' : A -> M B) P Q,
  sim m m' P -> (forall a, P a -> sim (f a) (f' a) Q) -> sim (bind m f) (bind m' f') Q.
Proof.
  intros A B m m' f f' P Q Hm Hf s r s' W H. unfold bind in *. destruct (m s) as [x s1|] eqn:E1; [|discriminate].
  destruct (Hm _ _ _ W E1) as (E2 & W1 & HP). rewrite E2. exact (Hf x HP _ _ _ W1 H).
Qed.
Lemma sim_ret : forall A (a : A) (Q : A -> Prop), Q a -> sim (ret a) (ret a) Q.
Proof. intros A a Q HQ s r s' W H. injection H as <- <-. repeat split; assumption. Qed.
Lemma sim_weaken : forall A (m m' : M A) (P Q : A -> Prop), (forall a, P a -> Q a) -> sim m m' P -> sim m m' Q.
Proof. intros A m m' P Q HPQ H s r s' W HM. destruct (H _ _ _ W HM) as (? & ? & ?). auto. Qed.
Lemma sim_any : forall A (m m' : M A) (P : A -> Prop), sim m m' P -> sim m m' any.
Proof. intros. eapply sim_weaken; [|eassumption]. intros; exact I. Qed.
Lemma sim_lift : forall A (o : option A) (Q : A -> Prop), (forall a, o = Some a -> Q a) -> sim (lift o) (lift o) Q.
Proof. intros A [a|] Q HQ; [|intros s r s' W H; discriminate]. apply sim_ret. now apply HQ. Qed.
Lemma sim_undef : forall A Q, @sim A undef undef Q.
Proof. intros A Q s r s' W H. discriminate. Qed.
Lemma sim_keep : forall A (m : M A) (Q : A -> Prop), (forall s r s', weak s -> m s = Done r s' -> weak s' /\ Q r) -> sim m m Q.
Proof. intros A m Q H s r s' W HM. destruct (H _ _ _ W HM). auto. Qed.
Lemma weak_mem : forall s s', mem s = mem s' -> weak s -> weak s'.
Proof. intros s s' HM W p o H. apply (W p o). unfold get_obj in *. now rewrite HM. Qed.

Lemma sim_error : forall e k, sim (error_set e k) (error_set e k) any.
Proof. intros e k. apply sim_keep. intros s r s' W H. injection H as <- <-. split; [|exact I]. revert W. now apply weak_mem. Qed.
Lemma sim_fail : forall e k, sim (fail e k) (fail e k) any.
Proof. intros e k. eapply sim_bind; [apply sim_error|]. intros ? _. now apply sim_ret. Qed.
Lemma sim_log : forall f, sim (log_frame f) (log_frame f) any.
Proof. intros f. apply sim_keep. intros s r s' W H. injection H as <- <-. split; [|exact I]. revert W. now apply weak_mem. Qed.

Definition ctx_ok (a : algid) (c : ctx) : Prop := hash_ok a (c_hash c) /\ Forall is_byte (c_block c).
Lemma sim_load : forall a p, sim (load_ctx a p) (load_ctx a p) (ctx_ok a).
Proof.
  intros a p. apply sim_keep. intros s r s' W H. unfold load_ctx in H. destruct (get_obj s p) as [[l|a' c|q]|] eqn:G; try discriminate.
  destruct (algid_eqb a a') eqn:Q; [|discriminate]. injection H as <- <-. apply algid_eqb_eq in Q. subst a'.
  split; [exact W|]. exact (W _ _ G).
Qed.
Lemma weak_put : forall s p o s', weak s -> weak_obj o -> put_obj p o s = Some s' -> weak s'.
Proof.
  intros s p o s' W HO H. unfold put_obj in H. destruct (nth_error (mem s) p) as [c|] eqn:N; [|discriminate].
  destruct (live c); [|discriminate]. injection H as <-. intros q x G. unfold get_obj in G. cbn [set_mem mem] in G.
  destruct (Nat.eq_dec p q) as [<-|NE].
  - rewrite replace_same in G by (apply nth_error_Some; congruence). cbn in G. injection G as <-. exact HO.
  - rewrite replace_other in G by exact NE. apply (W q). exact G.
Qed.
Lemma sim_store : forall a p c, ctx_ok a c -> sim (store_ctx a p c) (store_ctx a p c) any.
Proof.
  intros a p c HC. apply sim_keep. intros s r s' W H. unfold store_ctx in H. destruct (get_obj s p) as [[l|a' c'|q]|] eqn:G; try discriminate.
  destruct (algid_eqb a a') eqn:Q; [|discriminate]. destruct (put_obj p (OCtx a c) s) as [s1|] eqn:P; [|discriminate].
  injection H as <- <-. split; [|exact I]. eapply weak_put; [exact W| |exact P]. exact HC.
Qed.
Lemma sim_view : forall p, sim (view p) (view p) (Forall is_byte).
Proof.
  intros p. apply sim_keep. intros s r s' W H. unfold view in H. destruct (get_obj s (fst p)) as [[l|a' c'|q]|] eqn:G; try discriminate.
  destruct (snd p <=? N.of_nat (length l)); [|discriminate]. injection H as <- <-. split; [exact W|]. apply Forall_skipn. exact (W _ _ G).
Qed.
Lemma splice_byte : forall l off d l', Forall is_byte l -> Forall is_byte d -> splice l off d = Some l' -> Forall is_byte l'.
Proof.
  intros l off d l' H1 H2 H. unfold splice in H. destruct (_ <=? _); [|discriminate]. injection H as <-.
  rewrite !Forall_app. repeat split; [now apply Forall_firstn|assumption|now apply Forall_skipn].
Qed.
Lemma take_byte : forall n l d, Forall is_byte l -> take n l = Some d -> Forall is_byte d.
Proof. intros n l d HF H. unfold take in H. destruct (_ <=? _); [|discriminate]. injection H as <-. now apply Forall_firstn. Qed.
Lemma sim_write : forall p d, Forall is_byte d -> sim (write p d) (write p d) any.
Proof.
  intros p d HD. apply sim_keep. intros s r s' W H. unfold write in H. destruct (get_obj s (fst p)) as [[l|a' c'|q]|] eqn:G; try discriminate.
  destruct (splice l (snd p) d) as [l'|] eqn:S; [|discriminate]. destruct (put_obj (fst p) (OBytes l') s) as [s1|] eqn:P; [|discriminate].
  injection H as <- <-. split; [|exact I]. eapply weak_put; [exact W| |exact P]. eapply splice_byte; [exact (W _ _ G)|exact HD|exact S].
Qed.
Lemma sim_mset : forall p v n, is_byte v -> sim (mset p v n) (mset p v n) any.
Proof. intros p v n HV. apply sim_write. apply Forall_forall. intros x Hx. apply repeat_spec in Hx. now subst. Qed.
Lemma sim_mcopy : forall dst src n, sim (mcopy dst src n) (mcopy dst src n) any.
Proof.
  intros dst src n. unfold mcopy. destruct (disjoint_ranges dst src n); [|apply sim_undef].
  eapply sim_bind; [apply sim_view|]. intros v HV. eapply sim_bind.
  - apply (sim_lift _ _ (Forall is_byte)). intros d Hd. exact (take_byte _ _ _ HV Hd).
  - intros d Hd. now apply sim_write.
Qed.
Lemma sim_read : forall p, sim (read_byte p) (read_byte p) is_byte.
Proof.
  intros p. eapply sim_bind; [apply sim_view|]. intros v HV. apply sim_lift. intros a H. apply nth_error_In in H.
  rewrite Forall_forall in HV. now apply HV.
Qed.
Lemma weak_kill : forall s p c, weak s -> live c = false -> weak (set_mem (replace (mem s) p c) s).
Proof.
  intros s p c W HL q x G. unfold get_obj in G. cbn [set_mem mem] in G.
  destruct (Nat.eq_dec p q) as [<-|NE].
  - destruct (Nat.lt_ge_cases p (length (mem s))).
    + rewrite replace_same in G by assumption. rewrite HL in G. discriminate.
    + assert (N : nth_error (replace (mem s) p c) p = None) by (apply nth_error_None; rewrite replace_length; assumption).
      rewrite N in G. discriminate.
  - rewrite replace_other in G by exact NE. apply (W q). exact G.
Qed.
Lemma sim_mfree : forall p, sim (mfree p) (mfree p) any.
Proof.
  intros p. apply sim_keep. intros s r s' W H. unfold mfree in H.
  destruct (nth_error (mem s) p) as [[[|] [|] o]|]; try discriminate. injection H as <- <-. split; [|exact I]. now apply weak_kill.
Qed.
Lemma sim_pop : forall p, sim (pop_local p) (pop_local p) any.
Proof.
  intros p. apply sim_keep. intros s r s' W H. unfold pop_local in H.
  destruct (nth_error (mem s) p) as [[[|] [|] o]|]; try discriminate. injection H as <- <-. split; [|exact I]. now apply weak_kill.
Qed.
Lemma weak_new : forall s k o m, weak s -> weak_obj o -> m = mem s ++ [mk_cell true k o] -> forall t er rs, weak (mk_state m t er rs).
Proof.
  intros s k o m W HO -> t er rs q x G. unfold get_obj in G. cbn [mem] in G.
  destruct (Nat.lt_ge_cases q (length (mem s))) as [L|L].
  - rewrite nth_error_app1 in G by exact L. exact (W _ _ G).
  - rewrite nth_error_app2 in G by exact L. destruct (q - length (mem s))%nat as [|j]; [|destruct j; discriminate].
    cbn in G. injection G as <-. exact HO.
Qed.
Lemma junk_bytes_byte : forall E id n, Forall is_byte (junk_bytes E id n).
Proof. intros. apply junk_byte. Qed.
Lemma sim_alloc_bytes : forall E n, sim (allocate_bytes E n) (allocate_bytes E n) any.
Proof.
  intros E n. apply sim_keep. intros s r s' W H. unfold allocate_bytes, allocate in H. split; [|exact I].
  destruct (alloc_ok E (tries s)); injection H as <- <-.
  - eapply (weak_new s _ (OBytes (junk_bytes E (length (mem s)) n))); [exact W|apply junk_bytes_byte|reflexivity].
  - revert W. now apply weak_mem.
Qed.
Lemma sim_push : forall E n, sim (fun s => push_local (OBytes (junk_bytes E (length (mem s)) n)) s)
                                 (fun s => push_local (OBytes (junk_bytes E (length (mem s)) n)) s) any.
Proof.
  intros E n. apply sim_keep. intros s r s' W H. unfold push_local in H. injection H as <- <-. split; [|exact I].
  eapply (weak_new s _ (OBytes (junk_bytes E (length (mem s)) n))); [exact W|apply junk_bytes_byte|reflexivity].
Qed.
Lemma sim_mfold : forall A B (f f' : A -> B -> M A) (P : A -> Prop) l a, (forall a b, P a -> sim (f a b) (f' a b) P) -> P a ->
  sim (mfold f l a) (mfold f' l a) P.
Proof.
  intros A B f f' P l. induction l as [|b l IH]; intros a HF HP; cbn [mfold]; [now apply sim_ret|].
  eapply sim_bind; [now apply HF|]. intros a' HA. now apply IH.
Qed.

Lemma bind_cong : forall A B (m : M A) (f g : A -> M B) s, (forall a s', f a s' = g a s') -> bind m f s = bind m g s.
Proof. intros A B m f g s H. unfold bind. destruct (m s); [apply H|reflexivity]. Qed.

(* ---------------------------------------------------------------- functions *)
Lemma iv_ok : forall a, hash_ok a (a_iv (alg_of a)).
Proof. intros a. exact (start_ok a true). Qed.
Lemma zero_hash_ok : forall a, hash_ok a (repeat 0 (nh a)).
Proof. intros a. exact (start_ok a false). Qed.
Lemma repeat_byte : forall n v, is_byte v -> Forall is_byte (repeat v n).
Proof. intros n v HV. apply Forall_forall. intros x Hx. apply repeat_spec in Hx. now subst. Qed.
Lemma zero_ctx_ok : forall a, ctx_ok a (zero_ctx (alg_of a)).
Proof. intros a. split; cbn [zero_ctx c_hash c_block]; [apply zero_hash_ok|apply repeat_byte; reflexivity]. Qed.

Section Sim.
Variable E : env.
Variable b : bool.
Let E' := rebuild b E.

Lemma sim_initialize : forall a c e, sim (context_initialize E a c e) (context_initialize E' a c e) any.
Proof.
  intros a c e. change (context_initialize E' a c e) with (context_initialize E a c e). apply sim_keep. intros s r s' W H. split; [|exact I].
  unfold context_initialize in H. destruct c as [[q|]|].
  - injection H as <- <-. revert W. now apply weak_mem.
  - unfold bind at 1, allocate in H. destruct (alloc_ok E (tries s)).
    + set (s1 := mk_state (mem s ++ [mk_cell true Heap (OCtx a (junk_ctx E (alg_of a) (length (mem s))))]) (S (tries s)) (errs s) (resid s)) in H.
      assert (G1 : get_obj s1 (length (mem s)) = Some (OCtx a (junk_ctx E (alg_of a) (length (mem s))))).
      { unfold get_obj, s1. cbn [mem]. rewrite nth_error_app2, Nat.sub_diag by lia. reflexivity. }
      erewrite bind_done in H by (eapply store_ctx_ok; exact G1).
      erewrite bind_done in H by (apply load_ctx_ok; eapply get_set_same; exact G1).
      erewrite bind_done in H by (eapply store_ctx_ok; eapply get_set_same; exact G1).
      injection H as <- <-. rewrite set_set. intros q x G. destruct (Nat.eq_dec (length (mem s)) q) as [<-|NE].
      * erewrite get_set_same in G by exact G1. injection G as <-. cbn [zero_ctx c_count c_boff c_block].
        split; cbn [c_hash c_block]; [apply iv_ok|apply repeat_byte; reflexivity].
      * rewrite get_set_other in G by exact NE. unfold get_obj, s1 in G. cbn [mem] in G.
        destruct (Nat.lt_ge_cases q (length (mem s))) as [L|L].
        -- rewrite nth_error_app1 in G by exact L. exact (W _ _ G).
        -- assert (N : nth_error (mem s ++ [mk_cell true Heap (OCtx a (junk_ctx E (alg_of a) (length (mem s))))]) q = None).
           { apply nth_error_None. rewrite app_length. cbn [length]. lia. }
           rewrite N in G. discriminate.
    + injection H as <- <-. revert W. now apply weak_mem.
  - injection H as <- <-. revert W. now apply weak_mem.
Qed.
Lemma sim_free : forall a c e, sim (context_free a c e) (context_free a c e) any.
Proof.
  intros a [[p|]|] e; cbn [context_free].
  - eapply sim_bind; [apply sim_mfree|]. intros _ _. now apply sim_ret.
  - now apply sim_ret.
  - eapply sim_bind; [apply sim_fail|]. intros r _. now apply sim_ret.
Qed.

Lemma sim_transform : forall a p buf size e, Forall is_byte buf ->
  sim (transform E a (Some p) (Some buf) size e) (transform E' a (Some p) (Some buf) size e) any.
Proof.
  intros a p buf size e HF. unfold transform. change (ssize_max E') with (ssize_max E).
  destruct (ssize_max E <? size); [apply sim_fail|].
  eapply sim_bind; [apply sim_load|]. intros c [HC HB].
  eapply sim_bind with (P := any).
  { apply sim_keep. intros s r s' W H. injection H as <- <-. split; [exact W|exact I]. }
  intros call _. cbn zeta. change (stack_junk E') with (stack_junk E).
  assert (X : forall (k : block_result -> M Z) k', (forall r, hash_ok a (snd (fst (fst r))) -> sim (k r) (k' r) any) ->
    sim (bind (lift (transform_loop E (alg_of a) (N.to_nat (size / a_bs (alg_of a))) buf 0 size (c_hash c)
           (map (stack_junk E call) (seq 0 (nh a))) (map (stack_junk E call) (seq (nh a) (a_nv (alg_of a)))))) k)
        (bind (lift (transform_loop E' (alg_of a) (N.to_nat (size / a_bs (alg_of a))) buf 0 size (c_hash c)
           (map (stack_junk E call) (seq 0 (nh a))) (map (stack_junk E call) (seq (nh a) (a_nv (alg_of a)))))) k') any).
  { intros k k' HK s r s' W H.
    destruct (transform_loop E (alg_of a) _ buf 0 size (c_hash c) _ _) as [q|] eqn:T; [|discriminate].
    destruct (loop_same a E b _ _ _ _ _ _ _ q HF HC ltac:(now rewrite map_length, seq_length) T) as [T' HQ].
    unfold E'. rewrite T'. exact (HK q HQ _ _ _ W H). }
  apply X. intros (((off, ch), hv), values) HQ. cbn [fst snd] in HQ.
  eapply sim_bind; [apply sim_store; split; assumption|]. intros _ _.
  eapply sim_bind; [apply (sim_lift _ _ any); intros; exact I|]. intros hv' _.
  eapply sim_bind; [apply (sim_lift _ _ any); intros; exact I|]. intros values' _.
  eapply sim_bind; [apply sim_log|]. intros _ _. now apply sim_ret.
Qed.

Lemma sim_tail : forall a p buf off size e, Forall is_byte buf ->
  sim (update_tail E a p buf off size e) (update_tail E' a p buf off size e) any.
Proof.
  intros a p buf off size e HF. unfold update_tail. change (size_mod E') with (size_mod E). eapply sim_bind with (P := any).
  - destruct (0 <? size); [|now apply sim_ret].
    eapply sim_bind; [apply sim_transform; now apply Forall_skipn|]. intros pc _.
    destruct (pc =? -1)%Z; [eapply sim_bind; [apply sim_fail|]; intros ? _; now apply sim_ret|].
    eapply sim_bind; [apply sim_load|]. intros c [HC HB]. cbn zeta.
    eapply sim_bind; [apply sim_store; split; assumption|]. intros _ _. now apply sim_ret.
  - intros [[off' size']|] _; [|now apply sim_ret]. destruct (0 <? size'); [|now apply sim_ret].
    destruct (a_bs (alg_of a) <=? size'); [apply sim_fail|].
    eapply sim_bind; [apply sim_load|]. intros c [HC HB].
    eapply sim_bind; [apply (sim_lift _ _ (Forall is_byte)); intros d Hd; eapply take_byte; [|exact Hd]; now apply Forall_skipn|]. intros d Hd.
    eapply sim_bind; [apply (sim_lift _ _ (Forall is_byte)); intros l Hl; eapply splice_byte; [exact HB|exact Hd|exact Hl]|]. intros l Hl.
    eapply sim_bind; [apply sim_store; split; assumption|]. intros _ _. now apply sim_ret.
Qed.

Lemma sim_update : forall a c bp size e, sim (context_update E a c bp size e) (context_update E' a c bp size e) any.
Proof.
  intros a [p|] [bp|] size e; try apply sim_fail. unfold context_update. change (ssize_max E') with (ssize_max E).
  destruct (ssize_max E <? size); [apply sim_fail|]. destruct (size =? 0); [now apply sim_ret|].
  eapply sim_bind; [apply sim_load|]. intros c [HC HB]. eapply sim_bind; [apply sim_view|]. intros buf HF.
  destruct (0 <? c_boff c); [|now apply sim_tail].
  destruct (a_bs (alg_of a) <=? c_boff c); [apply sim_fail|]. cbn zeta.
  eapply sim_bind; [apply (sim_lift _ _ (Forall is_byte)); intros d Hd; eapply take_byte; [|exact Hd]; exact HF|]. intros d Hd.
  eapply sim_bind; [apply (sim_lift _ _ (Forall is_byte)); intros l Hl; eapply splice_byte; [exact HB|exact Hd|exact Hl]|]. intros l Hl.
  eapply sim_bind; [apply sim_store; split; assumption|]. intros _ _.
  destruct (_ <? a_bs (alg_of a)); [now apply sim_ret|].
  eapply sim_bind; [now apply sim_transform|]. intros pc _. destruct (pc =? -1)%Z; [apply sim_fail|].
  eapply sim_bind; [apply sim_load|]. intros c' [HC' HB']. cbn zeta.
  eapply sim_bind; [apply sim_store; split; assumption|]. intros _ _. now apply sim_tail.
Qed.

(* the two texts that store the digest perform the same stores *)
Definition digest_step (a : algid) (p : nat) (hp : ptr) (_ : unit) (st : N * nat) : M unit :=
  c <- load_ctx a p ;; v <- lift (aget (c_hash c) (snd st)) ;;
  write (ptr_add hp (fst st)) (copy_from_uint (N.to_nat (a_w (alg_of a) / 8)) (a_big (alg_of a)) v).
Lemma loop_stores : forall a p hp n i s,
  (mfold (fun hash_index i => c <- load_ctx a p ;; v <- lift (aget (c_hash c) i) ;;
     write (ptr_add hp hash_index) (copy_from_uint (N.to_nat (a_w (alg_of a) / 8)) (a_big (alg_of a)) v) ;;;
     ret (hash_index + a_w (alg_of a) / 8)) (seq i n) (N.of_nat (i * wbytes a)) ;;; ret tt) s =
  mfold (digest_step a p hp) (map (fun i => (N.of_nat (i * wbytes a), i)) (seq i n)) tt s.
Proof.
  intros a p hp n. induction n as [|n IH]; intros i s; [reflexivity|]. rewrite <- cons_seq. cbn [map mfold].
  rewrite bind_assoc. unfold digest_step at 1. cbn [fst snd]. rewrite !bind_assoc. apply bind_cong. intros c s1.
  rewrite !bind_assoc. apply bind_cong. intros v s2. rewrite bind_assoc. apply bind_cong. intros [] s3.
  rewrite bind_ret. rewrite <- IH. rewrite wb8. replace (N.of_nat (i * wbytes a) + N.of_nat (wbytes a)) with (N.of_nat (S i * wbytes a)) by lia.
  reflexivity.
Qed.
Lemma store_same : forall a p hp s, store_digest E a p hp s = mfold (digest_step a p hp) (a_stores (alg_of a)) tt s.
Proof.
  intros a p hp s. unfold store_digest. destruct (unrolled E); [reflexivity|]. rewrite stores_eq, <- loop_stores. reflexivity.
Qed.
End Sim.

Section Sim2.
Variable E : env.
Variable b : bool.
Let E' := rebuild b E.

Lemma word_byte : forall a n v, Forall is_byte (copy_from_uint n (a_big (alg_of a)) v).
Proof. intros. rewrite copy_from_bytes. apply word_bytes_bytes. Qed.

Lemma sim_store_digest : forall a p hp, sim (store_digest E a p hp) (store_digest E' a p hp) any.
Proof.
  intros a p hp s r s' W H. rewrite store_same in H. rewrite store_same. revert s r s' W H.
  change (sim (mfold (digest_step a p hp) (a_stores (alg_of a)) tt) (mfold (digest_step a p hp) (a_stores (alg_of a)) tt) any).
  apply sim_mfold; [|exact I]. intros u st _. unfold digest_step.
  eapply sim_bind; [apply sim_load|]. intros c _. eapply sim_bind; [apply (sim_lift _ _ any); intros; exact I|]. intros v _.
  apply sim_write, word_byte.
Qed.

Lemma sim_finalize : forall a c hp n e, sim (context_finalize E a c hp n e) (context_finalize E' a c hp n e) any.
Proof.
  intros a [p|] [hp|] n e; try apply sim_fail. unfold context_finalize.
  assert (FC : forall l, final_checks E' (alg_of a) l n = final_checks E (alg_of a) l n).
  { induction l as [|[|] l IH]; [reflexivity| |]; cbn [final_checks]; rewrite IH; reflexivity. }
  rewrite FC. change (size_mod E') with (size_mod E).
  destruct (final_checks E (alg_of a) (a_checks (alg_of a)) n); [apply sim_fail|].
  eapply sim_bind; [apply sim_load|]. intros c [HC HB]. cbn zeta.
  eapply sim_bind; [apply (sim_lift _ _ (Forall is_byte)); intros l Hl; eapply splice_byte; [exact HB| |exact Hl]; now apply repeat_byte|]. intros l1 H1.
  eapply sim_bind; [apply (sim_lift _ _ (Forall is_byte)); intros l Hl; eapply splice_byte; [exact H1| |exact Hl]; apply (repeat_byte 1); reflexivity|]. intros l2 H2.
  eapply sim_bind; [apply (sim_lift _ _ (Forall is_byte)); intros l Hl; eapply splice_byte; [exact H2| |exact Hl]; apply word_byte|]. intros l3 H3.
  eapply sim_bind; [apply sim_store; split; assumption|]. intros _ _.
  eapply sim_bind; [now apply sim_transform|]. intros pc _. destruct (pc =? -1)%Z; [apply sim_fail|].
  eapply sim_bind; [apply sim_store_digest|]. intros _ _.
  eapply sim_bind; [apply sim_store, zero_ctx_ok|]. intros _ _. now apply sim_ret.
Qed.

Lemma sim_wrap : forall (m m' : M Z) e k, sim m m' any ->
  sim (r <- m ;; if (r =? 1)%Z then ret 1%Z else fail e k) (r <- m' ;; if (r =? 1)%Z then ret 1%Z else fail e k) any.
Proof. intros m m' e k H. eapply sim_bind; [exact H|]. intros r _. destruct (r =? 1)%Z; [now apply sim_ret|apply sim_fail]. Qed.
Lemma sim_wrap2 : forall (m m' : M (Z * option nat)) e k, sim m m' any ->
  sim (r <- m ;; if (fst r =? 1)%Z then ret r else z <- fail e k ;; ret (z, snd r))
      (r <- m' ;; if (fst r =? 1)%Z then ret r else z <- fail e k ;; ret (z, snd r)) any.
Proof.
  intros m m' e k H. eapply sim_bind; [exact H|]. intros r _. destruct (fst r =? 1)%Z; [now apply sim_ret|].
  eapply sim_bind; [apply sim_fail|]. intros z _. now apply sim_ret.
Qed.

Lemma sim_calc_error : forall a c, sim (calculate_on_error a c) (calculate_on_error a c) any.
Proof.
  intros a [p|]; cbn [calculate_on_error]; [|now apply sim_ret]. eapply sim_bind; [apply sim_free|]. intros _ _. now apply sim_ret.
Qed.
Lemma sim_goto : forall A e k (m : M A), sim m m any -> sim (error_set e k ;;; m) (error_set e k ;;; m) any.
Proof. intros A e k m H. eapply sim_bind; [apply sim_error|]. intros _ _. exact H. Qed.

Lemma sim_calculate : forall a bp n hp hn e, sim (calculate E a bp n hp hn e) (calculate E' a bp n hp hn e) any.
Proof.
  intros a bp n hp hn e. unfold calculate.
  eapply sim_bind; [apply sim_initialize|]. intros [r c] _. cbn [fst snd]. destruct (negb (r =? 1)%Z); [apply sim_goto, sim_calc_error|].
  eapply sim_bind; [apply sim_update|]. intros r1 _. destruct (negb (r1 =? 1)%Z); [apply sim_goto, sim_calc_error|].
  eapply sim_bind; [apply sim_finalize|]. intros r2 _. destruct (negb (r2 =? 1)%Z); [apply sim_goto, sim_calc_error|].
  eapply sim_bind; [apply sim_free|]. intros [r3 c3] _. cbn [fst snd]. destruct (negb (r3 =? 1)%Z); [apply sim_goto, sim_calc_error|].
  now apply sim_ret.
Qed.

Lemma sim_clear : forall a p, sim (clear_and_free a p) (clear_and_free a p) any.
Proof.
  intros a [q|]; cbn [clear_and_free]; [|now apply sim_ret]. eapply sim_bind; [apply sim_mset; reflexivity|]. intros _ _. apply sim_mfree.
Qed.
Lemma sim_hmac_error : forall a c x y z, sim (hmac_on_error a c x y z) (hmac_on_error a c x y z) any.
Proof.
  intros a c x y z. unfold hmac_on_error. eapply sim_bind with (P := any).
  - destruct c; [|now apply sim_ret]. eapply sim_bind; [apply sim_free|]. intros _ _. now apply sim_ret.
  - intros _ _. do 3 (eapply sim_bind; [apply sim_clear|]; intros _ _). now apply sim_ret.
Qed.
Lemma sim_goto_ret : forall A e k (x : A), sim (error_set e k ;;; ret x) (error_set e k ;;; ret x) any.
Proof. intros. apply sim_goto. now apply sim_ret. Qed.

Lemma sim_key_data : forall a kh kd key n e, sim (hmac_key_data E a kh kd key n e) (hmac_key_data E' a kh kd key n e) any.
Proof.
  intros a kh kd key n e. unfold hmac_key_data. destruct (n <=? hmac_block_size a).
  - eapply sim_bind; [apply sim_mcopy|]. intros _ _. eapply sim_bind; [apply sim_mset; reflexivity|]. intros _ _. now apply sim_ret.
  - eapply sim_bind; [apply sim_initialize|]. intros [r c] _. cbn [fst snd]. destruct (negb (r =? 1)%Z); [apply sim_goto_ret|].
    eapply sim_bind; [apply sim_update|]. intros r1 _. destruct (negb (r1 =? 1)%Z); [apply sim_goto_ret|].
    eapply sim_bind; [apply sim_finalize|]. intros r2 _. destruct (negb (r2 =? 1)%Z); [apply sim_goto_ret|].
    eapply sim_bind; [apply sim_free|]. intros [r3 c3] _. cbn [fst snd]. destruct (negb (r3 =? 1)%Z); [apply sim_goto_ret|].
    eapply sim_bind with (P := any); [destruct (_ <? _); [apply sim_mset; reflexivity|now apply sim_ret]|]. intros _ _.
    eapply sim_bind; [apply sim_mcopy|]. intros _ _. now apply sim_ret.
Qed.
Lemma lxor_byte : forall x y, is_byte x -> is_byte y -> is_byte (N.lxor x y).
Proof. intros x y HX HY. pose proof (lxor_bytes x [y] HX (Forall_cons _ HY (Forall_nil _))) as H. now inversion H. Qed.
Lemma sim_xor : forall ip op kd n, sim (hmac_xor ip op kd n) (hmac_xor ip op kd n) any.
Proof.
  intros ip op kd n. apply sim_mfold; [|exact I]. intros u i _. unfold hmac_xor_step.
  eapply sim_bind; [apply sim_read|]. intros x HX. eapply sim_bind; [apply sim_read|]. intros k HK.
  eapply sim_bind; [apply sim_write; apply Forall_cons; [now apply lxor_byte|apply Forall_nil]|]. intros _ _.
  eapply sim_bind; [apply sim_read|]. intros x' HX'. eapply sim_bind; [apply sim_read|]. intros k' HK'.
  apply sim_write; apply Forall_cons; [now apply lxor_byte|apply Forall_nil].
Qed.
Lemma sim_pass : forall a pad bp n hp hn e, sim (hmac_pass E a pad bp n hp hn e) (hmac_pass E' a pad bp n hp hn e) any.
Proof.
  intros a pad bp n hp hn e. unfold hmac_pass.
  eapply sim_bind; [apply sim_initialize|]. intros [r c] _. cbn [fst snd]. destruct (negb (r =? 1)%Z); [apply sim_goto_ret|].
  eapply sim_bind; [apply sim_update|]. intros r0 _. destruct (negb (r0 =? 1)%Z); [apply sim_goto_ret|].
  eapply sim_bind; [apply sim_update|]. intros r1 _. destruct (negb (r1 =? 1)%Z); [apply sim_goto_ret|].
  eapply sim_bind; [apply sim_finalize|]. intros r2 _. destruct (negb (r2 =? 1)%Z); [apply sim_goto_ret|].
  eapply sim_bind; [apply sim_free|]. intros [r3 c3] _. cbn [fst snd]. destruct (negb (r3 =? 1)%Z); [apply sim_goto_ret|].
  now apply sim_ret.
Qed.
Lemma sim_alloc2 : forall n, sim (allocate_bytes E n) (allocate_bytes E' n) any.
Proof. intros n. exact (sim_alloc_bytes E n). Qed.
Lemma sim_body : forall a kh key kn bp n hp hn e,
  sim (calculate_hmac_body E a kh key kn bp n hp hn e) (calculate_hmac_body E' a kh key kn bp n hp hn e) any.
Proof.
  intros a kh [key|] kn bp n hp hn e; [|apply sim_fail]. unfold calculate_hmac_body. change (ssize_max E') with (ssize_max E).
  destruct (ssize_max E <? kn); [apply sim_fail|]. destruct (hn <? a_hs (alg_of a)); [apply sim_fail|].
  eapply sim_bind; [apply sim_alloc2|]. intros [kd|] _; [|apply sim_goto, sim_hmac_error].
  eapply sim_bind; [apply sim_key_data|]. intros [c|] _; [apply sim_hmac_error|].
  eapply sim_bind; [apply sim_alloc2|]. intros [ip|] _; [|apply sim_goto, sim_hmac_error].
  eapply sim_bind; [apply sim_mset; reflexivity|]. intros _ _.
  eapply sim_bind; [apply sim_alloc2|]. intros [op|] _; [|apply sim_goto, sim_hmac_error].
  eapply sim_bind; [apply sim_mset; reflexivity|]. intros _ _.
  eapply sim_bind; [apply sim_xor|]. intros _ _.
  eapply sim_bind; [apply sim_pass|]. intros [c|] _; [apply sim_hmac_error|].
  eapply sim_bind; [apply sim_pass|]. intros [c|] _; [apply sim_hmac_error|].
  do 3 (eapply sim_bind; [apply sim_mset; reflexivity|]; intros _ _; eapply sim_bind; [apply sim_mfree|]; intros _ _).
  now apply sim_ret.
Qed.
Lemma sim_hmac : forall a key kn bp n hp hn e,
  sim (calculate_hmac E a key kn bp n hp hn e) (calculate_hmac E' a key kn bp n hp hn e) any.
Proof.
  intros a key kn bp n hp hn e. unfold calculate_hmac.
  eapply sim_bind; [exact (sim_push E _)|]. intros kh _. eapply sim_bind; [apply sim_body|]. intros r _.
  eapply sim_bind; [apply sim_pop|]. intros _ _. now apply sim_ret.
Qed.

Lemma sim_do_initialize : forall o a c e, sim (do_initialize E o a c e) (do_initialize E' o a c e) any.
Proof. intros [|] a c e; [apply sim_wrap2|]; apply sim_initialize. Qed.
Lemma sim_do_free : forall o a c e, sim (do_free o a c e) (do_free o a c e) any.
Proof. intros [|] a c e; [apply sim_wrap2|]; apply sim_free. Qed.
Lemma sim_do_update : forall o a c p n e, sim (do_update E o a c p n e) (do_update E' o a c p n e) any.
Proof. intros [|] a c p n e; [apply sim_wrap|]; apply sim_update. Qed.
Lemma sim_do_finalize : forall o a c p n e, sim (do_finalize E o a c p n e) (do_finalize E' o a c p n e) any.
Proof. intros [|] a c p n e; [apply sim_wrap|]; apply sim_finalize. Qed.
Lemma sim_peek : forall p n, sim (peek p n) (peek p n) any.
Proof. intros p n. apply sim_keep. intros s r s' W H. injection H as <- <-. split; [exact W|exact I]. Qed.
Lemma sim_peek_if : forall r p n, sim (peek_if r p n) (peek_if r p n) any.
Proof. intros r p n. unfold peek_if. destruct (r =? 1)%Z; [apply sim_peek|now apply sim_ret]. Qed.

Lemma sim_call : forall c vs, sim (run_call E c vs) (run_call E' c vs) any.
Proof.
  assert (V : forall vs i, sim (lift (nth_error (vs : vars) i)) (lift (nth_error vs i)) any) by (intros; apply sim_lift; intros; exact I).
  intros c vs. destruct c as [o [a|i] e|o [a|i] e|o [a|i] bp n e|o [a|i] hp n e|a bp n hp hn e|a k kn bp n hp hn e]; cbn [run_call].
  - eapply sim_bind; [apply sim_do_initialize|]. intros r _. now apply sim_ret.
  - eapply sim_bind; [apply V|]. intros v _. eapply sim_bind; [apply sim_do_initialize|]. intros r _. now apply sim_ret.
  - eapply sim_bind; [apply sim_do_free|]. intros r _. now apply sim_ret.
  - eapply sim_bind; [apply V|]. intros v _. eapply sim_bind; [apply sim_do_free|]. intros r _. now apply sim_ret.
  - eapply sim_bind; [apply sim_do_update|]. intros r _. now apply sim_ret.
  - eapply sim_bind; [apply V|]. intros v _. eapply sim_bind; [apply sim_peek|]. intros d _.
    eapply sim_bind; [apply sim_do_update|]. intros r _. now apply sim_ret.
  - eapply sim_bind; [apply sim_do_finalize|]. intros r _. now apply sim_ret.
  - eapply sim_bind; [apply V|]. intros v _. eapply sim_bind; [apply sim_do_finalize|]. intros r _.
    eapply sim_bind; [apply sim_peek_if|]. intros d _. now apply sim_ret.
  - eapply sim_bind; [apply sim_peek|]. intros m _. eapply sim_bind; [apply sim_calculate|]. intros r _.
    eapply sim_bind; [apply sim_peek_if|]. intros d _. now apply sim_ret.
  - eapply sim_bind; [apply sim_peek|]. intros key _. eapply sim_bind; [apply sim_peek|]. intros m _.
    eapply sim_bind; [apply sim_hmac|]. intros r _. eapply sim_bind; [apply sim_peek_if|]. intros d _. now apply sim_ret.
Qed.
Lemma sim_run : forall h vs, sim (run E h vs) (run E' h vs) any.
Proof.
  induction h as [|c t IH]; intros vs; cbn [run]; [now apply sim_ret|].
  eapply sim_bind; [apply sim_call|]. intros r _. eapply sim_bind; [apply IH|]. intros q _. now apply sim_ret.
Qed.
End Sim2.

(* ------------------------------------------------------------------- results *)
Lemma good_weak : forall s, good_state s -> weak s.
Proof.
  intros s G p o H. apply good_wf in G. pose proof (G p o H) as W. destruct o as [l|a c|q]; [exact W| |exact I].
  cbn [obj_ok weak_obj] in *. split; [exact (wf_hash _ _ W)|exact (wf_block _ _ W)].
Qed.

Lemma same_both : forall A (f : env -> M A), (forall E b, sim (f E) (f (rebuild b E)) any) ->
  forall E b s, good_state s -> f E s = f (rebuild b E) s.
Proof.
  intros A f H E b s G. apply good_weak in G. destruct (f E s) as [r s1|] eqn:F1.
  - destruct (H E b s r s1 G F1) as (F2 & _). now rewrite F2.
  - destruct (f (rebuild b E) s) as [r s1|] eqn:F2; [|reflexivity].
    destruct (H (rebuild b E) (unrolled E) s r s1 G F2) as (F3 & _).
    assert (EE : rebuild (unrolled E) (rebuild b E) = E) by (destruct E; reflexivity). rewrite EE in F3. congruence.
Qed.

Lemma same_run : forall E b h vs s, good_state s -> run E h vs s = run (rebuild b E) h vs s.
Proof. intros E b h vs. apply (same_both _ (fun E => run E h vs)). intros E0 b0. apply sim_run. Qed.
Lemma same_calculate : forall E b a bp n hp hn e s, good_state s -> calculate E a bp n hp hn e s = calculate (rebuild b E) a bp n hp hn e s.
Proof. intros E b a bp n hp hn e. apply (same_both _ (fun E => calculate E a bp n hp hn e)). intros. apply sim_calculate. Qed.
Lemma same_hmac : forall E b a k kn bp n hp hn e s, good_state s ->
  calculate_hmac E a k kn bp n hp hn e s = calculate_hmac (rebuild b E) a k kn bp n hp hn e s.
Proof. intros E b a k kn bp n hp hn e. apply (same_both _ (fun E => calculate_hmac E a k kn bp n hp hn e)). intros. apply sim_hmac. Qed.
Lemma same_initialize : forall E b a c e s, good_state s -> context_initialize E a c e s = context_initialize (rebuild b E) a c e s.
Proof. intros E b a c e. apply (same_both _ (fun E => context_initialize E a c e)). intros. apply sim_initialize. Qed.
Lemma same_update : forall E b a c bp n e s, good_state s -> context_update E a c bp n e s = context_update (rebuild b E) a c bp n e s.
Proof. intros E b a c bp n e. apply (same_both _ (fun E => context_update E a c bp n e)). intros. apply sim_update. Qed.
Lemma same_finalize : forall E b a c bp n e s, good_state s -> context_finalize E a c bp n e s = context_finalize (rebuild b E) a c bp n e s.
Proof. intros E b a c bp n e. apply (same_both _ (fun E => context_finalize E a c bp n e)). intros. apply sim_finalize. Qed.

(* with the environment taken apart *)
Lemma builds_run : forall u1 u2 p64 ok j sj h vs s, good_state s ->
  run (mk_env u1 p64 ok j sj) h vs s = run (mk_env u2 p64 ok j sj) h vs s.
Proof. intros u1 u2 p64 ok j sj h vs s G. exact (same_run (mk_env u1 p64 ok j sj) u2 h vs s G). Qed.
Lemma builds_calculate : forall u1 u2 p64 ok j sj a buffer size hash hash_size e s, good_state s ->
  calculate (mk_env u1 p64 ok j sj) a buffer size hash hash_size e s = calculate (mk_env u2 p64 ok j sj) a buffer size hash hash_size e s.
Proof. intros u1 u2 p64 ok j sj a b n h hn e s G. exact (same_calculate (mk_env u1 p64 ok j sj) u2 a b n h hn e s G). Qed.
Lemma builds_hmac : forall u1 u2 p64 ok j sj a key key_size buffer size hmac hmac_size e s, good_state s ->
  calculate_hmac (mk_env u1 p64 ok j sj) a key key_size buffer size hmac hmac_size e s =
  calculate_hmac (mk_env u2 p64 ok j sj) a key key_size buffer size hmac hmac_size e s.
Proof. intros u1 u2 p64 ok j sj a k kn b n h hn e s G. exact (same_hmac (mk_env u1 p64 ok j sj) u2 a k kn b n h hn e s G). Qed.
Lemma builds_update : forall u1 u2 p64 ok j sj a context buffer size e s, good_state s ->
  context_update (mk_env u1 p64 ok j sj) a context buffer size e s = context_update (mk_env u2 p64 ok j sj) a context buffer size e s.
Proof. intros u1 u2 p64 ok j sj a c b n e s G. exact (same_update (mk_env u1 p64 ok j sj) u2 a c b n e s G). Qed.
Lemma builds_finalize : forall u1 u2 p64 ok j sj a context hash hash_size e s, good_state s ->
  context_finalize (mk_env u1 p64 ok j sj) a context hash hash_size e s = context_finalize (mk_env u2 p64 ok j sj) a context hash hash_size e s.
Proof. intros u1 u2 p64 ok j sj a c h n e s G. exact (same_finalize (mk_env u1 p64 ok j sj) u2 a c h n e s G). Qed.
