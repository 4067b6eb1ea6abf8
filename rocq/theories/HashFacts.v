(* initialize, free, argument checks and calculate. *)
From Coq Require Import Arith NArith ZArith List Lia Bool.
From Verif Require Import Words Spec Tables Transform Machine Context Hash WordFacts BlockFacts ShaFacts
  MachineFacts TransformFacts ContextFacts DigestFacts ReprFacts.
Import ListNotations.
Open Scope N_scope.
Arguments N.mul : simpl never.
Arguments N.add : simpl never.
Arguments N.sub : simpl never.
Arguments N.div : simpl never.
Arguments N.modulo : simpl never.
Arguments N.pow : simpl never.
Arguments alg_of : simpl never.

(* ------------------------------------------------ states as old ++ new *)

(* the caller's cells [old], followed by the cells made since *)
Definition st (old news : list cell) (t : nat) (er : list err) (rs : list frame) : state :=
  mk_state (old ++ news) t er rs.

Lemma st_of : forall s, s = st (mem s) [] (tries s) (errs s) (resid s).
Proof. intros []. unfold st. cbn. now rewrite app_nil_r. Qed.

Definition setl (p : nat) (o : obj) (l : list cell) : list cell :=
  match nth_error l p with Some c => replace l p (mk_cell (live c) (knd c) o) | None => l end.

Lemma setl_length : forall p o l, length (setl p o l) = length l.
Proof. intros. unfold setl. destruct (nth_error l p); [apply replace_length|reflexivity]. Qed.

Definition cell_ok (c : cell) : Prop := live c = true -> obj_ok (content c).

Lemma wf_cells : forall s, wf_state s <-> Forall cell_ok (mem s).
Proof.
  intros s. unfold wf_state. split.
  - intros H. apply Forall_forall. intros c Hc Hl. apply In_nth_error in Hc. destruct Hc as [p Hp].
    apply (H p). unfold get_obj. now rewrite Hp, Hl.
  - intros H p o Hg. unfold get_obj in Hg. destruct (nth_error (mem s) p) as [c|] eqn:Ep; [|discriminate].
    destruct (live c) eqn:El; [|discriminate]. injection Hg as <-.
    apply nth_error_In in Ep. rewrite Forall_forall in H. now apply H.
Qed.

Lemma get_st_new : forall old news t er rs j k o, nth_error news j = Some (mk_cell true k o) ->
  get_obj (st old news t er rs) (length old + j) = Some o.
Proof.
  intros. unfold get_obj, st. cbn [mem]. rewrite nth_error_app2 by lia.
  replace (length old + j - length old)%nat with j by lia. now rewrite H.
Qed.
Lemma get_st_old : forall old news t er rs p o,
  (exists c, nth_error old p = Some c /\ live c = true /\ content c = o) -> get_obj (st old news t er rs) p = Some o.
Proof.
  intros old news t er rs p o (c & H & L & C). unfold get_obj, st. cbn [mem].
  rewrite nth_error_app1 by (apply nth_error_Some; congruence). now rewrite H, L, C.
Qed.
Lemma get_obj_cell : forall s p o, get_obj s p = Some o ->
  exists c, nth_error (mem s) p = Some c /\ live c = true /\ content c = o.
Proof.
  unfold get_obj. intros s p o H. destruct (nth_error (mem s) p) as [c|]; [|discriminate].
  destruct (live c) eqn:E; [|discriminate]. exists c. repeat split; congruence.
Qed.

Lemma set_st_new : forall old news t er rs j c o, nth_error news j = Some c ->
  set_obj (length old + j) o (st old news t er rs) = st old (replace news j (mk_cell (live c) (knd c) o)) t er rs.
Proof.
  intros. unfold set_obj, st. cbn [mem]. rewrite nth_error_app2 by lia.
  replace (length old + j - length old)%nat with j by lia. rewrite H. unfold set_mem. cbn [tries errs resid].
  f_equal. clear H. induction old; [reflexivity|]. cbn. now rewrite IHold.
Qed.
Lemma set_st_old : forall old news t er rs p o, (p < length old)%nat ->
  set_obj p o (st old news t er rs) = st (setl p o old) news t er rs.
Proof.
  intros. unfold set_obj, st, setl. cbn [mem]. rewrite nth_error_app1 by assumption.
  destruct (nth_error old p) eqn:E; [|apply nth_error_None in E; lia].
  unfold set_mem. cbn [tries errs resid]. rewrite replace_app_l by assumption. reflexivity.
Qed.
Definition errs_add (e : bool) (er : list err) (ks : list err) : list err := if e then er ++ ks else er.

Lemma errs_add_add : forall e er ks ks', errs_add e (errs_add e er ks) ks' = errs_add e er (ks ++ ks').
Proof. intros [] *; cbn; [now rewrite app_assoc|reflexivity]. Qed.
Lemma error_st : forall old news t er rs e k,
  error_set e k (st old news t er rs) = Done tt (st old news t (errs_add e er [k]) rs).
Proof. reflexivity. Qed.
Lemma frames_st : forall old news t er rs fs, add_frames fs (st old news t er rs) = st old news t er (rs ++ fs).
Proof. reflexivity. Qed.
Lemma err_st : forall old news t er rs e k,
  add_err e k (st old news t er rs) = st old news t (errs_add e er [k]) rs.
Proof. reflexivity. Qed.
Lemma alloc_st : forall E old news t er rs o,
  allocate o E (st old news t er rs) =
  if alloc_ok E t then Done (Some (length old + length news)%nat) (st old (news ++ [mk_cell true Heap o]) (S t) er rs)
  else Done None (st old news (S t) er rs).
Proof.
  intros. unfold allocate, st. cbn [tries mem errs resid]. destruct (alloc_ok E t); [|reflexivity].
  now rewrite app_length, app_assoc.
Qed.
Lemma mfree_st : forall old news t er rs j o, nth_error news j = Some (mk_cell true Heap o) ->
  mfree (length old + j) (st old news t er rs) = Done tt (st old (replace news j (mk_cell false Heap o)) t er rs).
Proof.
  intros. unfold mfree, st. cbn [mem]. rewrite nth_error_app2 by lia.
  replace (length old + j - length old)%nat with j by lia. rewrite H. unfold set_mem. cbn [tries errs resid].
  do 2 f_equal. clear H. induction old; [reflexivity|]. cbn. now rewrite IHold.
Qed.
Lemma wf_st : forall old news t er rs, Forall cell_ok old -> Forall cell_ok news -> wf_state (st old news t er rs).
Proof. intros. apply wf_cells. cbn. apply Forall_app. now split. Qed.

Lemma setl_ok : forall p o l, Forall cell_ok l -> obj_ok o -> Forall cell_ok (setl p o l).
Proof.
  intros p o l H Ho. unfold setl. destruct (nth_error l p) as [c|] eqn:E; [|assumption]. clear E.
  revert p. induction H; intros [|p]; cbn [replace]; constructor; try assumption; try (intro; assumption). apply IHForall.
Qed.

(* -------------------------------------------------------- initialize, free *)

Lemma initialize_st : forall E a e old news t er rs,
  context_initialize E a (Some None) e (st old news t er rs) =
  if alloc_ok E t
  then Done (1%Z, Some (length old + length news)%nat) (st old (news ++ [mk_cell true Heap (OCtx a (init_ctx a))]) (S t) er rs)
  else Done ((-1)%Z, None) (st old news (S t) (errs_add e er [E_MEMORY_INSUFFICIENT]) rs).
Proof.
  intros. unfold context_initialize, bind at 1. rewrite alloc_st. destruct (alloc_ok E t); [|reflexivity].
  set (j := (OCtx a (junk_ctx E (alg_of a) (length (mem (st old news t er rs)))))).
  assert (G : forall o, nth_error (news ++ [mk_cell true Heap o]) (length news) = Some (mk_cell true Heap o)).
  { intros. rewrite nth_error_app2, Nat.sub_diag by lia. reflexivity. }
  erewrite bind_done by (eapply store_ctx_ok; eapply get_st_new; apply G).
  erewrite set_st_new by apply G. rewrite replace_app_last. cbn [live knd].
  erewrite bind_done by (eapply load_ctx_ok; eapply get_st_new; apply G).
  erewrite bind_done by (eapply store_ctx_ok; eapply get_st_new; apply G).
  erewrite set_st_new by apply G. rewrite replace_app_last. reflexivity.
Qed.

Lemma initialize_eq : forall E a e s,
  context_initialize E a (Some None) e s =
  if alloc_ok E (tries s)
  then Done (1%Z, Some (length (mem s))) (tick (new_cell Heap (OCtx a (init_ctx a)) s))
  else Done ((-1)%Z, None) (add_err e E_MEMORY_INSUFFICIENT (tick s)).
Proof.
  intros. rewrite (st_of s) at 1. rewrite initialize_st. destruct (alloc_ok E (tries s)).
  - cbn [length app]. rewrite Nat.add_0_r. reflexivity.
  - unfold st, add_err, tick. cbn. now rewrite app_nil_r.
Qed.

Lemma free_st : forall a e old news t er rs j o, nth_error news j = Some (mk_cell true Heap o) ->
  context_free a (Some (Some (length old + j)%nat)) e (st old news t er rs)
  = Done (1%Z, None) (st old (replace news j (mk_cell false Heap o)) t er rs).
Proof. intros. unfold context_free. erewrite bind_done by (apply mfree_st; eassumption). reflexivity. Qed.

(* ---------------------------------------------------------- argument checks *)

Definition update_error (E : env) (context : option nat) (buffer : option ptr) (size : N) : option err :=
  match context, buffer with
  | None, _ | _, None => Some E_ARGUMENT_INVALID_VALUE
  | _, _ => if ssize_max E <? size then Some E_ARGUMENT_VALUE_EXCEEDS_MAXIMUM else None
  end.

Lemma update_rejects : forall E a context buffer size e s k,
  update_error E context buffer size = Some k -> context_update E a context buffer size e s = Done (-1)%Z (add_err e k s).
Proof.
  intros E a [p|] [bp|] size e s k H; cbn in H; try (injection H as <-; reflexivity).
  unfold context_update. destruct (ssize_max E <? size); [|discriminate]. injection H as <-. reflexivity.
Qed.

Definition finalize_error (E : env) (a : algid) (context : option nat) (hash : option ptr) (hash_size : N) : option err :=
  match context, hash with
  | None, _ | _, None => Some E_ARGUMENT_INVALID_VALUE
  | _, _ => final_checks E (alg_of a) (a_checks (alg_of a)) hash_size
  end.

Lemma checks_none : forall E a n, final_checks E (alg_of a) (a_checks (alg_of a)) n = None ->
  a_hs (alg_of a) <= n /\ n <= ssize_max E.
Proof.
  intros E a n. assert (H : In CheckMax (a_checks (alg_of a)) /\ In CheckMin (a_checks (alg_of a))).
  { destruct a; vm_compute; auto. }
  revert H. generalize (a_checks (alg_of a)). intros l [H1 H2].
  assert (G : final_checks E (alg_of a) l n = None ->
    (In CheckMax l -> n <= ssize_max E) /\ (In CheckMin l -> a_hs (alg_of a) <= n)).
  { clear. induction l as [|[|] l]; cbn [final_checks]; intros H.
    - split; intros [].
    - destruct (N.ltb_spec (ssize_max E) n); [discriminate|]. destruct (IHl H). split; intros [|]; auto; discriminate.
    - destruct (N.ltb_spec n (a_hs (alg_of a))); [discriminate|]. destruct (IHl H). split; intros [|]; auto; discriminate. }
  intros H. destruct (G H). auto.
Qed.

Lemma finalize_rejects : forall E a context hash hash_size e s k,
  finalize_error E a context hash hash_size = Some k ->
  context_finalize E a context hash hash_size e s = Done (-1)%Z (add_err e k s).
Proof.
  intros E a [p|] [hp|] hash_size e s k H; cbn in H; try (injection H as <-; reflexivity).
  unfold context_finalize. rewrite H. reflexivity.
Qed.

Lemma finalize_error_none : forall E a context hash hash_size,
  finalize_error E a context hash hash_size = None ->
  exists p hp, context = Some p /\ hash = Some hp /\ a_hs (alg_of a) <= hash_size /\ hash_size <= ssize_max E.
Proof.
  intros E a [p|] [hp|] hash_size H; cbn in H; try discriminate. apply checks_none in H. eauto 6.
Qed.
Lemma update_error_none : forall E context buffer size,
  update_error E context buffer size = None ->
  exists p bp, context = Some p /\ buffer = Some bp /\ size <= ssize_max E.
Proof.
  intros E [p|] [bp|] size H; cbn in H; try discriminate.
  destruct (N.ltb_spec (ssize_max E) size); [discriminate|]. eauto 6.
Qed.

(* ------------------------------------------- context functions, st form *)

Lemma access_lt : forall s p n, accessible s p n -> (fst p < length (mem s))%nat.
Proof. intros s p n (l & H & _). eapply get_obj_lt. eassumption. Qed.

Lemma access_st : forall old news t er rs old0 t0 er0 rs0 p n,
  accessible (st old0 [] t0 er0 rs0) p n -> nth_error old (fst p) = nth_error old0 (fst p) ->
  accessible (st old news t er rs) p n /\ bytes_at (st old news t er rs) p n = bytes_at (st old0 [] t0 er0 rs0) p n.
Proof.
  intros old news t er rs old0 t0 er0 rs0 p n (l & H & L) E.
  assert (G : get_obj (st old news t er rs) (fst p) = get_obj (st old0 [] t0 er0 rs0) (fst p)).
  { pose proof (get_obj_lt _ _ _ H) as Lt. apply get_obj_cell in H. destruct H as (c & H & Hl & Hc).
    unfold get_obj, st in *. cbn [mem] in *. rewrite app_nil_r in *. rewrite H, Hl.
    rewrite nth_error_app1; [now rewrite E, H, Hl|]. apply nth_error_Some. congruence. }
  split.
  - exists l. now rewrite G.
  - unfold bytes_at. now rewrite G.
Qed.

Lemma update_st : forall E a e old news t er rs j c bp size,
  Forall cell_ok old -> Forall cell_ok news -> nth_error news j = Some (mk_cell true Heap (OCtx a c)) ->
  accessible (st old news t er rs) bp size -> size <= ssize_max E ->
  exists fs, Forall (frame_clean a) fs /\
  context_update E a (Some (length old + j)%nat) (Some bp) size e (st old news t er rs) =
  Done 1%Z (st old (replace news j (mk_cell true Heap (OCtx a (update_fn a c (bytes_at (st old news t er rs) bp size))))) t er (rs ++ fs)).
Proof.
  intros E a e old news t er rs j c bp size Ho Hn Hj Hacc Hs.
  destruct (context_update_ok E a (length old + j) bp size e (st old news t er rs) c) as (fs & Hf & H);
    [now apply wf_st|exact (get_st_new _ _ _ _ _ _ _ _ Hj)|assumption|assumption|].
  exists fs. split; [assumption|]. rewrite H. erewrite set_st_new by eassumption. reflexivity.
Qed.

Lemma finalize_st : forall E a e old news t er rs j c hp hash_size l,
  Forall cell_ok old -> Forall cell_ok news -> nth_error news j = Some (mk_cell true Heap (OCtx a c)) ->
  get_obj (st old news t er rs) (fst hp) = Some (OBytes l) -> (fst hp < length old)%nat ->
  snd hp + a_hs (alg_of a) <= N.of_nat (length l) ->
  a_hs (alg_of a) <= hash_size -> hash_size <= ssize_max E ->
  exists f, frame_clean a f /\
  context_finalize E a (Some (length old + j)%nat) (Some hp) hash_size e (st old news t er rs) =
  Done 1%Z (st (setl (fst hp) (OBytes (put l (snd hp) (digest_fn a c))) old)
               (replace news j (mk_cell true Heap (OCtx a (zero_ctx (alg_of a))))) t er (rs ++ [f])).
Proof.
  intros E a e old news t er rs j c hp hash_size l Ho Hn Hj Hl Hlt Hacc H1 H2.
  destruct (context_finalize_ok E a (length old + j) hp hash_size e (st old news t er rs) c l) as (f & Hf & H);
    try assumption; [now apply wf_st|exact (get_st_new _ _ _ _ _ _ _ _ Hj)|].
  exists f. split; [assumption|]. rewrite H, set_st_old by assumption.
  rewrite <- (setl_length (fst hp) (OBytes (put l (snd hp) (digest_fn a c))) old) at 1.
  erewrite set_st_new by eassumption. reflexivity.
Qed.

(* ---------------------------------------------------------------- calculate *)

Definition dead (o : obj) : cell := mk_cell false Heap o.

Definition calculate_ctx_error (E : env) (a : algid) (buffer : option ptr) (size : N) (hash : option ptr) (hash_size : N)
  : option (list err) :=
  match update_error E (Some 0%nat) buffer size with
  | Some k => Some [k; E_RUNTIME_SET_FAILED]
  | None => match finalize_error E a (Some 0%nat) hash hash_size with
            | Some k => Some [k; E_RUNTIME_FINALIZE_FAILED]
            | None => None
            end
  end.

(* everything calculate can do, given that the arguments describe real buffers *)
Lemma calculate_cases : forall E a buffer size hash hash_size e s,
  wf_state s -> arg s buffer size -> arg s hash hash_size ->
  (alloc_ok E (tries s) = false /\
   calculate E a buffer size hash hash_size e s =
   Done (-1)%Z (mk_state (mem s) (S (tries s)) (errs_add e (errs s) [E_MEMORY_INSUFFICIENT; E_RUNTIME_INITIALIZE_FAILED]) (resid s)))
  \/
  (alloc_ok E (tries s) = true /\
   exists ks c fs, calculate_ctx_error E a buffer size hash hash_size = Some ks /\ Forall (frame_clean a) fs /\
   calculate E a buffer size hash hash_size e s =
   Done (-1)%Z (mk_state (mem s ++ [dead (OCtx a c)]) (S (tries s)) (errs_add e (errs s) ks) (resid s ++ fs)))
  \/
  (alloc_ok E (tries s) = true /\ calculate_ctx_error E a buffer size hash hash_size = None /\
   exists bp hp l fs, buffer = Some bp /\ hash = Some hp /\ get_obj s (fst hp) = Some (OBytes l) /\
   Forall (frame_clean a) fs /\
   calculate E a buffer size hash hash_size e s =
   Done 1%Z (mk_state (setl (fst hp) (OBytes (put l (snd hp) (code_hash a (a_iv (alg_of a)) 0 (bytes_at s bp size)))) (mem s)
                       ++ [dead (OCtx a (zero_ctx (alg_of a)))]) (S (tries s)) (errs s) (resid s ++ fs))).
Proof.
  intros E a buffer size hash hash_size e s WS HB HH.
  pose proof (proj1 (wf_cells s) WS) as Hold.
  set (old := mem s) in *.
  assert (Es : st old [] (tries s) (errs s) (resid s) = s) by (symmetry; apply st_of).
  replace (calculate E a buffer size hash hash_size e s)
    with (calculate E a buffer size hash hash_size e (st old [] (tries s) (errs s) (resid s))) by now rewrite Es.
  assert (HA : forall p n, accessible s p n -> accessible (st old [] (tries s) (errs s) (resid s)) p n).
  { intros. rewrite Es. assumption. }
  destruct (alloc_ok E (tries s)) eqn:Eal.
  2: { left. split; [reflexivity|]. unfold calculate, bind at 1. rewrite initialize_st, Eal.
       cbn [fst snd Z.eqb negb Pos.eqb]. unfold errs_add. destruct e; cbn; rewrite ?app_nil_r, <- ?app_assoc; reflexivity. }
  right.
  unfold calculate at 1 2. unfold calculate_ctx_error.
  assert (Hinit : context_initialize E a (Some None) e (st old [] (tries s) (errs s) (resid s)) =
    Done (1%Z, Some (length old + 0)%nat) (st old [mk_cell true Heap (OCtx a (init_ctx a))] (S (tries s)) (errs s) (resid s))).
  { rewrite initialize_st, Eal. reflexivity. }
  set (c0 := mk_cell true Heap (OCtx a (init_ctx a))) in *.
  assert (Hnew : Forall cell_ok [c0]) by (constructor; [intros _; apply init_wf|constructor]).
  change (update_error E (Some 0%nat) buffer size) with (update_error E (Some (length old + 0)%nat) buffer size).
  destruct (update_error E (Some (length old + 0)%nat) buffer size) as [k|] eqn:Eu.
  { left. split; [reflexivity|]. exists [k; E_RUNTIME_SET_FAILED], (init_ctx a), [].
    split; [reflexivity|]. split; [constructor|]. erewrite bind_done by exact Hinit.
    cbn [fst snd Z.eqb Pos.eqb negb]. erewrite bind_done by (apply update_rejects; exact Eu).
    cbn [Z.eqb Pos.eqb negb]. rewrite err_st. erewrite bind_done by apply error_st. rewrite errs_add_add.
    cbn [calculate_on_error]. erewrite bind_done by (apply free_st; reflexivity). rewrite app_nil_r. reflexivity. }
  destruct (update_error_none _ _ _ _ Eu) as (p & bp & Hp & -> & Hsz). clear Hp.
  cbn [arg] in HB.
  destruct (access_st old [c0] (S (tries s)) (errs s) (resid s) old (tries s) (errs s) (resid s) bp size) as [Ha1 Hb1];
    [now apply HA|reflexivity|].
  destruct (update_st E a e old [c0] (S (tries s)) (errs s) (resid s) 0 (init_ctx a) bp size) as (fs & Hfs & Hup);
    try assumption; [reflexivity|].
  rewrite Hb1 in Hup. cbn [replace] in Hup.
  set (c1 := update_fn a (init_ctx a) (bytes_at (st old [] (tries s) (errs s) (resid s)) bp size)) in *.
  assert (Hbytes : Forall is_byte (bytes_at (st old [] (tries s) (errs s) (resid s)) bp size)).
  { rewrite Es. unfold bytes_at. destruct HB as (l & Hl & _). rewrite Hl.
    apply Forall_firstn, Forall_skipn. exact (WS _ _ Hl). }
  assert (Hw1 : ctx_wf a c1) by (apply update_fn_wf; [apply init_wf|assumption]).
  change (finalize_error E a (Some 0%nat) hash hash_size) with (finalize_error E a (Some (length old + 0)%nat) hash hash_size).
  destruct (finalize_error E a (Some (length old + 0)%nat) hash hash_size) as [k|] eqn:Ef.
  { left. split; [reflexivity|]. exists [k; E_RUNTIME_FINALIZE_FAILED], c1, fs.
    split; [reflexivity|]. split; [assumption|]. erewrite bind_done by exact Hinit.
    cbn [fst snd Z.eqb Pos.eqb negb]. erewrite bind_done by exact Hup. cbn [Z.eqb Pos.eqb negb].
    erewrite bind_done by (apply finalize_rejects; exact Ef).
    cbn [Z.eqb Pos.eqb negb]. rewrite err_st. erewrite bind_done by apply error_st. rewrite errs_add_add.
    cbn [calculate_on_error]. erewrite bind_done by (apply free_st; reflexivity). reflexivity. }
  right. split; [reflexivity|]. split; [reflexivity|].
  destruct (finalize_error_none _ _ _ _ _ Ef) as (p' & hp & Hp & -> & Hh1 & Hh2). clear Hp.
  cbn [arg] in HH. destruct HH as (l & Hl & Hll).
  pose proof (get_obj_lt _ _ _ Hl) as Hlt. fold old in Hlt.
  destruct (finalize_st E a e old [mk_cell true Heap (OCtx a c1)] (S (tries s)) (errs s) (resid s ++ fs) 0 c1 hp hash_size l)
    as (f & Hf & Hfin); try assumption; try reflexivity.
  { constructor; [intros _; exact Hw1|constructor]. }
  { apply get_st_old. exact (get_obj_cell _ _ _ Hl). }
  { lia. }
  exists bp, hp, l, (fs ++ [f]).
  split; [reflexivity|]. split; [reflexivity|]. split; [assumption|].
  split; [apply Forall_app; split; [assumption|constructor; [assumption|constructor]]|].
  erewrite bind_done by exact Hinit. cbn [fst snd Z.eqb Pos.eqb negb].
  erewrite bind_done by exact Hup. cbn [Z.eqb Pos.eqb negb].
  erewrite bind_done by exact Hfin. cbn [Z.eqb Pos.eqb negb replace].
  rewrite <- (setl_length (fst hp) (OBytes (put l (snd hp) (digest_fn a c1))) old) at 1.
  erewrite bind_done by (apply free_st; reflexivity).
  cbn [fst snd Z.eqb Pos.eqb negb replace]. unfold ret, st.
  assert (R1 : ctx_repr a (a_iv (alg_of a)) 0 c1 ([] ++ bytes_at (st old [] (tries s) (errs s) (resid s)) bp size)).
  { apply update_repr; [apply init_repr|assumption]. }
  rewrite (digest_repr _ _ _ _ _ R1), Es. rewrite <- app_assoc. reflexivity.
Qed.
