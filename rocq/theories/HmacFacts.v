(* calculate_hmac. *)
From Coq Require Import Arith NArith ZArith List Lia Bool.
From Verif Require Import Words Spec Tables Transform Machine Context Hash WordFacts BlockFacts ShaFacts
  MachineFacts TransformFacts ContextFacts DigestFacts ReprFacts HashFacts.
Import ListNotations.
Open Scope N_scope.
Arguments N.mul : simpl never.
Arguments N.add : simpl never.
Arguments N.sub : simpl never.
Arguments N.div : simpl never.
Arguments N.modulo : simpl never.
Arguments N.pow : simpl never.
Arguments N.lxor : simpl never.
Arguments N.to_nat : simpl never.
Arguments N.of_nat : simpl never.
Arguments alg_of : simpl never.
Arguments hmac_block_size : simpl never.

(* ---------------------------------------------------------- the xor loop *)

Fixpoint xorn (n : nat) (l k : list N) : list N :=
  match n, l, k with
  | S m, x :: l', y :: k' => N.lxor x y :: xorn m l' k'
  | _, _, _ => l
  end.

Lemma xorn_length : forall n l k, length (xorn n l k) = length l.
Proof. induction n; intros [|x l] [|y k]; cbn; auto. Qed.

Lemma xorn_nth : forall n l k, nth n (xorn n l k) 0 = nth n l 0.
Proof. induction n; intros [|x l] [|y k]; cbn; auto. Qed.

Lemma xorn_step : forall n l k, (n < length l)%nat -> (n < length k)%nat ->
  put (xorn n l k) (N.of_nat n) [N.lxor (nth n l 0) (nth n k 0)] = xorn (S n) l k.
Proof.
  intros n l k H1 H2. unfold put. rewrite Nnat.Nat2N.id. cbn [length].
  revert l k H1 H2. induction n; intros [|x l] [|y k] H1 H2; cbn [length] in *; try lia.
  - reflexivity.
  - specialize (IHn l k). cbn [xorn firstn app Nat.add skipn nth]. f_equal. apply IHn; lia.
Qed.

Lemma xorn_repeat : forall n v k, length k = n -> xorn n (repeat v n) k = map (N.lxor v) k.
Proof. induction n; intros v [|y k] H; try discriminate; cbn in *; [reflexivity|]. f_equal. apply IHn. lia. Qed.

Lemma xor_steps : forall ip op kd li lo lk s, ip <> op -> ip <> kd -> op <> kd ->
  get_obj s ip = Some (OBytes li) -> get_obj s op = Some (OBytes lo) -> get_obj s kd = Some (OBytes lk) ->
  forall n, (n <= length li)%nat -> (n <= length lo)%nat -> (n <= length lk)%nat ->
  hmac_xor ip op kd n s = Done tt (set_obj op (OBytes (xorn n lo lk)) (set_obj ip (OBytes (xorn n li lk)) s)).
Proof.
  intros ip op kd li lo lk s N1 N2 N3 Gi Go Gk. unfold hmac_xor.
  induction n; intros L1 L2 L3.
  - cbn [seq mfold xorn]. rewrite (set_id s ip), (set_id s op) by assumption. reflexivity.
  - rewrite seq_S, mfold_app. cbn [Nat.add]. erewrite bind_done by (apply IHn; lia).
    cbn [mfold]. unfold hmac_xor_step.
    set (s1 := set_obj op (OBytes (xorn n lo lk)) (set_obj ip (OBytes (xorn n li lk)) s)).
    assert (G1 : get_obj s1 ip = Some (OBytes (xorn n li lk))).
    { unfold s1. rewrite get_set_other by congruence. eapply get_set_same. eassumption. }
    assert (G2 : get_obj s1 op = Some (OBytes (xorn n lo lk))).
    { unfold s1. eapply get_set_same. rewrite get_set_other by congruence. eassumption. }
    assert (G3 : get_obj s1 kd = Some (OBytes lk)).
    { unfold s1. rewrite !get_set_other by congruence. assumption. }
    match goal with |- bind ?m _ s1 = _ => assert (HS : m s1 = Done tt (set_obj op (OBytes (xorn (S n) lo lk)) (set_obj ip (OBytes (xorn (S n) li lk)) s))) end.
    { erewrite bind_done by (eapply (read_byte_ok s1 (ip, N.of_nat n)); [exact G1|cbn; rewrite xorn_length; lia]).
      erewrite bind_done by (eapply (read_byte_ok s1 (kd, N.of_nat n)); [exact G3|cbn; lia]).
      cbn [fst snd]. rewrite Nnat.Nat2N.id, xorn_nth.
      erewrite bind_done by (unfold write_byte; eapply (write_ok s1 (ip, N.of_nat n)); [exact G1|cbn; rewrite xorn_length; lia]).
      cbn [fst snd]. rewrite xorn_step by lia.
      set (s2 := set_obj ip (OBytes (xorn (S n) li lk)) s1).
      assert (G4 : get_obj s2 op = Some (OBytes (xorn n lo lk))) by (unfold s2; rewrite get_set_other by congruence; assumption).
      assert (G5 : get_obj s2 kd = Some (OBytes lk)) by (unfold s2; rewrite get_set_other by congruence; assumption).
      erewrite bind_done by (eapply (read_byte_ok s2 (op, N.of_nat n)); [exact G4|cbn; rewrite xorn_length; lia]).
      erewrite bind_done by (eapply (read_byte_ok s2 (kd, N.of_nat n)); [exact G5|cbn; lia]).
      cbn [fst snd]. rewrite Nnat.Nat2N.id, xorn_nth. unfold write_byte.
      erewrite (write_ok s2 (op, N.of_nat n)); [|exact G4|cbn; rewrite xorn_length; lia].
      cbn [fst snd]. rewrite xorn_step by lia. unfold s2, s1.
      rewrite (set_comm _ op ip) by congruence. rewrite !set_set. reflexivity. }
    erewrite bind_done by exact HS. reflexivity.
Qed.

(* ----------------------------------------------------- st forms, continued *)

Lemma mset_st : forall old news t er rs j k l v n,
  nth_error news j = Some (mk_cell true k (OBytes l)) -> length l = N.to_nat n ->
  mset ((length old + j)%nat, 0) v n (st old news t er rs) =
  Done tt (st old (replace news j (mk_cell true k (OBytes (repeat v (N.to_nat n))))) t er rs).
Proof.
  intros old news t er rs j k l v n Hj Hl.
  erewrite mset_ok; [|exact (get_st_new _ _ _ _ _ _ _ _ Hj)|cbn; lia].
  cbn [fst snd]. rewrite put_all by (rewrite repeat_length; congruence).
  erewrite set_st_new by eassumption. reflexivity.
Qed.

Lemma finalize_st_new : forall E a e old news t er rs j c i k hash_size l,
  Forall cell_ok old -> Forall cell_ok news -> nth_error news j = Some (mk_cell true Heap (OCtx a c)) ->
  nth_error news i = Some (mk_cell true k (OBytes l)) -> i <> j ->
  length l = N.to_nat (a_hs (alg_of a)) ->
  a_hs (alg_of a) <= hash_size -> hash_size <= ssize_max E ->
  exists f, frame_clean a f /\
  context_finalize E a (Some (length old + j)%nat) (Some ((length old + i)%nat, 0)) hash_size e (st old news t er rs) =
  Done 1%Z (st old (replace (replace news i (mk_cell true k (OBytes (digest_fn a c)))) j
                      (mk_cell true Heap (OCtx a (zero_ctx (alg_of a))))) t er (rs ++ [f])).
Proof.
  intros E a e old news t er rs j c i k hash_size l Ho Hn Hj Hi Hij Hl H1 H2.
  destruct (context_finalize_ok E a (length old + j) ((length old + i)%nat, 0) hash_size e (st old news t er rs) c l) as (f & Hf & H);
    try assumption; [now apply wf_st|exact (get_st_new _ _ _ _ _ _ _ _ Hj)|exact (get_st_new _ _ _ _ _ _ _ _ Hi)|cbn; lia|].
  exists f. split; [assumption|]. rewrite H. cbn [fst snd].
  rewrite put_all.
  2: { rewrite Hl. unfold digest_fn. rewrite digest_bytes_length; [reflexivity|]. apply blocks_ok.
       rewrite Forall_forall in Hn. apply (wf_hash a). exact (Hn _ (nth_error_In _ _ Hj) eq_refl). }
  erewrite set_st_new by eassumption.
  erewrite set_st_new by (rewrite replace_other by congruence; eassumption). reflexivity.
Qed.

Lemma in_old : forall old news t er rs p o, (p < length old)%nat ->
  get_obj (st old [] t er rs) p = Some o -> get_obj (st old news t er rs) p = Some o.
Proof.
  intros old news t er rs p o H G. apply get_st_old. apply get_obj_cell in G. cbn [mem st] in G. rewrite app_nil_r in G. exact G.
Qed.

(* a pointer argument into the caller's cells *)
Definition argl (old : list cell) (p : option ptr) (n : N) : Prop := arg (st old [] 0 [] []) p n.
Definition bytesl (old : list cell) (p : ptr) (n : N) : list N := bytes_at (st old [] 0 [] []) p n.

Lemma argl_st : forall old news t er rs p n, argl old (Some p) n ->
  accessible (st old news t er rs) p n /\ bytes_at (st old news t er rs) p n = bytesl old p n.
Proof. intros. apply (access_st old news t er rs old 0 [] []); [assumption|reflexivity]. Qed.

Lemma argl_bytes : forall old p n, Forall cell_ok old -> argl old (Some p) n -> Forall is_byte (bytesl old p n).
Proof.
  intros old p n Ho (l & Hl & _). unfold bytesl, bytes_at. rewrite Hl. apply Forall_firstn, Forall_skipn.
  apply get_obj_cell in Hl. destruct Hl as (c & Hn & Hv & Hc). cbn [st mem] in Hn. rewrite app_nil_r in Hn.
  apply nth_error_In in Hn. rewrite Forall_forall in Ho. specialize (Ho _ Hn Hv). rewrite Hc in Ho. exact Ho.
Qed.

Lemma argl_length : forall old p n, argl old (Some p) n -> length (bytesl old p n) = N.to_nat n.
Proof. intros. apply bytes_at_length. assumption. Qed.

Lemma argl_cell : forall old p n, argl old (Some p) n -> exists c l, nth_error old (fst p) = Some c /\ live c = true /\
  content c = OBytes l /\ snd p + n <= N.of_nat (length l).
Proof.
  intros old p n (l & Hl & H). apply get_obj_cell in Hl. destruct Hl as (c & Hn & Hv & Hc). cbn [st mem] in Hn.
  rewrite app_nil_r in Hn. eauto 8.
Qed.

Lemma block_pos : forall a, hmac_block_size a = a_bs (alg_of a).
Proof. destruct a; reflexivity. Qed.
Lemma hs_lt_block : forall a, a_hs (alg_of a) < hmac_block_size a.
Proof. destruct a; vm_compute; reflexivity. Qed.
Lemma block_le_max : forall E a, hmac_block_size a <= ssize_max E.
Proof. intros E a. rewrite block_pos. pose proof (bs_le a). pose proof (ssize_ge E). lia. Qed.

(* ------------------------------------------------------------- key_data *)

Definition code_hmac_key (a : algid) (key : list N) : list N :=
  hmac_key (code_hash a (a_iv (alg_of a)) 0) (N.to_nat (hmac_block_size a)) key.

Lemma code_hash_length : forall a h0 n0 m, hash_ok a h0 -> length (code_hash a h0 n0 m) = N.to_nat (a_hs (alg_of a)).
Proof. intros. apply digest_bytes_length, blocks_ok. assumption. Qed.
Lemma code_hash_bytes : forall a h0 n0 m, Forall is_byte (code_hash a h0 n0 m).
Proof. intros. apply digest_bytes_bytes. Qed.

Lemma put_two : forall l d d', length l = (length d + length d')%nat ->
  put (put l 0 d) (N.of_nat (length d)) d' = d ++ d'.
Proof.
  intros l d d' H. unfold put. cbn [firstn]. change (N.to_nat 0) with 0%nat. cbn [firstn app Nat.add].
  rewrite Nnat.Nat2N.id. rewrite firstn_app, Nat.sub_diag. cbn [firstn]. rewrite firstn_all, app_nil_r.
  rewrite (@skipn_all2 _ (length d + length d')%nat); [|rewrite app_length, skipn_length; lia]. rewrite app_nil_r. reflexivity.
Qed.

Lemma put_two' : forall l d d', length l = (length d + length d')%nat ->
  put (put l (N.of_nat (length d)) d') 0 d = d ++ d'.
Proof.
  intros l d d' H. unfold put. change (N.to_nat 0) with 0%nat. cbn [firstn app Nat.add].
  rewrite Nnat.Nat2N.id. f_equal. rewrite skipn_app. rewrite firstn_length, Nat.min_l by lia. rewrite Nat.sub_diag.
  cbn [skipn]. rewrite (@skipn_all2 _ (length d) (firstn (length d) l)) by (rewrite firstn_length; lia).
  rewrite (@skipn_all2 _ (length d + length d')%nat l) by lia. now rewrite app_nil_r.
Qed.

Lemma key_data_st : forall E a e old t er rs key key_size khl kdl,
  Forall cell_ok old -> argl old (Some key) key_size -> key_size <= ssize_max E ->
  length khl = N.to_nat (a_hs (alg_of a)) -> length kdl = N.to_nat (hmac_block_size a) ->
  Forall is_byte khl -> Forall is_byte kdl ->
  let K := bytesl old key key_size in
  let kh := mk_cell true Stack (OBytes khl) in
  let kd := mk_cell true Heap (OBytes kdl) in
  let s := st old [kh; kd] t er rs in
  let run := hmac_key_data E a (length old + 0) (length old + 1) key key_size e s in
  (key_size <= hmac_block_size a /\
   run = Done None (st old [kh; mk_cell true Heap (OBytes (code_hmac_key a K))] t er rs))
  \/
  (hmac_block_size a < key_size /\ alloc_ok E t = false /\
   run = Done (Some None) (st old [kh; kd] (S t) (errs_add e er [E_MEMORY_INSUFFICIENT; E_RUNTIME_INITIALIZE_FAILED]) rs))
  \/
  (hmac_block_size a < key_size /\ alloc_ok E t = true /\ exists fs, Forall (frame_clean a) fs /\
   run = Done None (st old [mk_cell true Stack (OBytes (code_hash a (a_iv (alg_of a)) 0 K));
                            mk_cell true Heap (OBytes (code_hmac_key a K));
                            dead (OCtx a (zero_ctx (alg_of a)))] (S t) er (rs ++ fs))).
Proof.
  intros E a e old t er rs key key_size khl kdl Ho Hk Hks Lkh Lkd Bkh Bkd K kh kd s run.
  pose proof (argl_length _ _ _ Hk) as LK. fold K in LK.
  destruct (argl_st old [kh; kd] t er rs key key_size Hk) as [HacK HbK]. fold K in HbK.
  destruct (argl_cell _ _ _ Hk) as (ck & lk & Hck & Hlk & Hok & Hlen).
  assert (Hlt : (fst key < length old)%nat) by (apply nth_error_Some; congruence).
  unfold run, hmac_key_data. destruct (N.leb_spec key_size (hmac_block_size a)) as [Hsh|Hlo].
  - left. split; [assumption|].
    assert (Gk : get_obj s (fst key) = Some (OBytes lk)) by (apply get_st_old; eauto).
    assert (Gd : get_obj s (length old + 1) = Some (OBytes kdl)) by (eapply get_st_new; reflexivity).
    erewrite bind_done by (eapply mcopy_ok; [exact Gk|exact Gd|cbn [fst]; lia|assumption|cbn [snd]; lia]).
    cbn [fst snd]. unfold s at 1. rewrite HbK. unfold s. erewrite set_st_new by reflexivity. cbn [replace live knd].
    erewrite bind_done.
    2: { eapply (mset_ok _ ((length old + 1)%nat, key_size)); [eapply get_st_new; reflexivity|].
         rewrite put_length by lia. cbn [snd]. lia. }
    cbn [fst snd]. erewrite set_st_new by reflexivity. cbn [replace live knd].
    replace key_size with (N.of_nat (length K)) at 1 by lia. rewrite put_two by (rewrite repeat_length; lia).
    unfold ret. do 4 f_equal. unfold code_hmac_key, hmac_key.
    replace (N.to_nat (hmac_block_size a) <? length K)%nat with false by (symmetry; apply Nat.ltb_ge; lia).
    do 3 f_equal. f_equal. lia.
  - right. destruct (alloc_ok E t) eqn:Eal.
    2: { left. repeat split; try assumption. unfold s.
         erewrite bind_done by (rewrite initialize_st, Eal; reflexivity).
         cbn [fst snd Z.eqb Pos.eqb negb]. erewrite bind_done by apply error_st. rewrite errs_add_add. reflexivity. }
    right. repeat split; try assumption.
    assert (Hinit : context_initialize E a (Some None) e s =
      Done (1%Z, Some (length old + 2)%nat) (st old [kh; kd; mk_cell true Heap (OCtx a (init_ctx a))] (S t) er rs)).
    { unfold s. rewrite initialize_st, Eal. reflexivity. }
    set (c0 := mk_cell true Heap (OCtx a (init_ctx a))) in *.
    assert (Hkh : cell_ok kh) by (intros _; exact Bkh).
    assert (Hkd : cell_ok kd) by (intros _; exact Bkd).
    assert (Hc0 : cell_ok c0) by (intros _; apply init_wf).
    destruct (argl_st old [kh; kd; c0] (S t) er rs key key_size Hk) as [Ha1 Hb1]. fold K in Hb1.
    destruct (update_st E a e old [kh; kd; c0] (S t) er rs 2 (init_ctx a) key key_size) as (fs & Hfs & Hup);
      try assumption; [repeat (apply Forall_cons; [assumption|]); apply Forall_nil|reflexivity|].
    rewrite Hb1 in Hup. cbn [replace] in Hup. set (c1 := update_fn a (init_ctx a) K) in *.
    assert (HbyK : Forall is_byte K) by (apply argl_bytes; assumption).
    assert (Hw1 : ctx_wf a c1) by (apply update_fn_wf; [apply init_wf|assumption]).
    pose proof (hs_lt_block a) as Hhs. pose proof (block_le_max E a) as Hbm.
    destruct (finalize_st_new E a e old [kh; kd; mk_cell true Heap (OCtx a c1)] (S t) er (rs ++ fs) 2 c1 0 Stack
                (a_hs (alg_of a)) khl) as (f & Hf & Hfin); try assumption; try reflexivity; try lia.
    { apply Forall_cons; [assumption|]. apply Forall_cons; [assumption|]. apply Forall_cons; [intros _; exact Hw1|apply Forall_nil]. }
    cbn [replace] in Hfin.
    assert (R1 : ctx_repr a (a_iv (alg_of a)) 0 c1 ([] ++ K)) by (apply update_repr; [apply init_repr|assumption]).
    rewrite (digest_repr _ _ _ _ _ R1) in Hfin. cbn [app] in Hfin.
    set (D := code_hash a (a_iv (alg_of a)) 0 K) in *.
    assert (LD : length D = N.to_nat (a_hs (alg_of a))) by (apply code_hash_length, iv_ok).
    exists (fs ++ [f]). split; [apply Forall_app; split; [assumption|apply Forall_cons; [assumption|apply Forall_nil]]|].
    erewrite bind_done by exact Hinit. cbn [fst snd Z.eqb Pos.eqb negb].
    erewrite bind_done by exact Hup. cbn [Z.eqb Pos.eqb negb].
    erewrite bind_done by exact Hfin. cbn [Z.eqb Pos.eqb negb].
    erewrite bind_done by (apply free_st; reflexivity). cbn [fst snd Z.eqb Pos.eqb negb replace].
    destruct (N.ltb_spec (a_hs (alg_of a)) (hmac_block_size a)); [|lia].
    erewrite bind_done.
    2: { eapply (mset_ok _ ((length old + 1)%nat, a_hs (alg_of a))); [eapply get_st_new; reflexivity|]. cbn [snd]. lia. }
    cbn [fst snd]. erewrite set_st_new by reflexivity. cbn [replace live knd].
    erewrite bind_done.
    2: { eapply mcopy_ok; [eapply get_st_new; reflexivity|eapply get_st_new; reflexivity|cbn [fst]; lia|cbn [snd]; lia|].
         rewrite put_length by (rewrite repeat_length; lia). cbn [snd]. lia. }
    cbn [fst snd]. erewrite set_st_new by reflexivity. cbn [replace live knd].
    unfold bytes_at. cbn [fst snd]. erewrite get_st_new by reflexivity. cbn [snd]. change (N.to_nat 0) with 0%nat. cbn [skipn].
    rewrite (@firstn_all2 _ _ D) by lia.
    replace (a_hs (alg_of a)) with (N.of_nat (length D)) at 1 by lia.
    rewrite put_two' by (rewrite repeat_length; lia).
    unfold ret, dead. rewrite <- app_assoc. do 6 f_equal. unfold code_hmac_key, hmac_key. fold D.
    replace (N.to_nat (hmac_block_size a) <? length K)%nat with true by (symmetry; apply Nat.ltb_lt; lia).
    do 2 f_equal. lia.
Qed.

(* ------------------------------------------------------------- one pass *)

Lemma pass_st : forall E a e old news t er rs jp pad buffer size hm hmac_size,
  Forall cell_ok old -> Forall cell_ok news ->
  nth_error news jp = Some (mk_cell true Heap (OBytes pad)) -> length pad = N.to_nat (hmac_block_size a) ->
  argl old buffer size -> argl old hm hmac_size ->
  let run := hmac_pass E a (length old + jp) buffer size hm hmac_size e (st old news t er rs) in
  (alloc_ok E t = false /\
   run = Done (Some None) (st old news (S t) (errs_add e er [E_MEMORY_INSUFFICIENT; E_RUNTIME_INITIALIZE_FAILED]) rs))
  \/
  (alloc_ok E t = true /\ exists ks c fs, calculate_ctx_error E a buffer size hm hmac_size = Some ks /\
   Forall (frame_clean a) fs /\ ctx_wf a c /\
   run = Done (Some (Some (length old + length news)%nat))
              (st old (news ++ [mk_cell true Heap (OCtx a c)]) (S t) (errs_add e er ks) (rs ++ fs)))
  \/
  (alloc_ok E t = true /\ calculate_ctx_error E a buffer size hm hmac_size = None /\
   exists bp hp l ch fs, buffer = Some bp /\ hm = Some hp /\ nth_error old (fst hp) = Some ch /\ live ch = true /\
   content ch = OBytes l /\ snd hp + hmac_size <= N.of_nat (length l) /\
   Forall (frame_clean a) fs /\
   run = Done None (st (setl (fst hp) (OBytes (put l (snd hp)
                         (code_hash a (a_iv (alg_of a)) 0 (pad ++ bytesl old bp size)))) old)
                       (news ++ [dead (OCtx a (zero_ctx (alg_of a)))]) (S t) er (rs ++ fs))).
Proof.
  intros E a e old news t er rs jp pad buffer size hm hmac_size Ho Hn Hjp Lp HB HH run.
  assert (Hjl : (jp < length news)%nat) by (apply nth_error_Some; congruence).
  assert (Bp : Forall is_byte pad).
  { rewrite Forall_forall in Hn. exact (Hn _ (nth_error_In _ _ Hjp) eq_refl). }
  unfold run, hmac_pass, calculate_ctx_error. destruct (alloc_ok E t) eqn:Eal.
  2: { left. split; [reflexivity|]. erewrite bind_done by (rewrite initialize_st, Eal; reflexivity).
       cbn [fst snd Z.eqb Pos.eqb negb]. erewrite bind_done by apply error_st. rewrite errs_add_add. reflexivity. }
  right.
  assert (Hlast : forall o, nth_error (news ++ [mk_cell true Heap o]) (length news) = Some (mk_cell true Heap o)).
  { intros. rewrite nth_error_app2, Nat.sub_diag by lia. reflexivity. }
  assert (Hpadat : forall c, nth_error (news ++ [c]) jp = Some (mk_cell true Heap (OBytes pad))).
  { intros. rewrite nth_error_app1; assumption. }
  assert (Hnc : forall c, ctx_wf a c -> Forall cell_ok (news ++ [mk_cell true Heap (OCtx a c)])).
  { intros c Hc. apply Forall_app. split; [assumption|]. apply Forall_cons; [intros _; exact Hc|apply Forall_nil]. }
  (* initialize *)
  assert (Hinit : context_initialize E a (Some None) e (st old news t er rs) =
    Done (1%Z, Some (length old + length news)%nat) (st old (news ++ [mk_cell true Heap (OCtx a (init_ctx a))]) (S t) er rs)).
  { rewrite initialize_st, Eal. reflexivity. }
  (* update with the padding *)
  set (s1 := st old (news ++ [mk_cell true Heap (OCtx a (init_ctx a))]) (S t) er rs) in *.
  assert (Gp : get_obj s1 (length old + jp) = Some (OBytes pad)) by (eapply get_st_new; apply Hpadat).
  assert (Hap : accessible s1 ((length old + jp)%nat, 0) (hmac_block_size a)).
  { exists pad. split; [exact Gp|]. cbn [snd]. lia. }
  destruct (update_st E a e old (news ++ [mk_cell true Heap (OCtx a (init_ctx a))]) (S t) er rs (length news) (init_ctx a)
              ((length old + jp)%nat, 0) (hmac_block_size a)) as (fs1 & Hfs1 & Hup1);
    [assumption|apply Hnc, init_wf|apply Hlast|exact Hap|apply block_le_max|].
  fold s1 in Hup1.
  assert (Hbp : bytes_at s1 ((length old + jp)%nat, 0) (hmac_block_size a) = pad).
  { unfold bytes_at. cbn [fst snd]. rewrite Gp. change (N.to_nat 0) with 0%nat. cbn [skipn]. apply firstn_all2. lia. }
  rewrite Hbp, replace_app_last in Hup1. set (c1 := update_fn a (init_ctx a) pad) in *.
  assert (R1 : ctx_repr a (a_iv (alg_of a)) 0 c1 pad).
  { apply (update_repr a (a_iv (alg_of a)) 0 (init_ctx a) []); [apply init_repr|assumption]. }
  pose proof (re_wf _ _ _ _ _ R1) as W1.
  change (update_error E (Some 0%nat) buffer size) with (update_error E (Some (length old + length news)%nat) buffer size).
  destruct (update_error E (Some (length old + length news)%nat) buffer size) as [k|] eqn:Eu.
  { left. split; [reflexivity|]. exists [k; E_RUNTIME_SET_FAILED], c1, fs1.
    split; [reflexivity|]. split; [assumption|]. split; [assumption|].
    erewrite bind_done by exact Hinit. cbn [fst snd Z.eqb Pos.eqb negb].
    erewrite bind_done by exact Hup1. cbn [Z.eqb Pos.eqb negb].
    erewrite bind_done by (apply update_rejects; exact Eu). rewrite err_st. cbn [Z.eqb Pos.eqb negb].
    erewrite bind_done by apply error_st. rewrite errs_add_add. reflexivity. }
  destruct (update_error_none _ _ _ _ Eu) as (p & bp & Hp & -> & Hsz). clear Hp.
  set (news2 := news ++ [mk_cell true Heap (OCtx a c1)]) in *.
  destruct (argl_st old news2 (S t) er (rs ++ fs1) bp size HB) as [Ha2 Hb2].
  destruct (update_st E a e old news2 (S t) er (rs ++ fs1) (length news) c1 bp size) as (fs2 & Hfs2 & Hup2);
    [assumption|apply Hnc, W1|apply Hlast|exact Ha2|assumption|].
  unfold news2 in Hup2 at 2. rewrite Hb2, replace_app_last in Hup2.
  set (c2 := update_fn a c1 (bytesl old bp size)) in *.
  pose proof (argl_bytes _ _ _ Ho HB) as Bb.
  assert (R2 : ctx_repr a (a_iv (alg_of a)) 0 c2 (pad ++ bytesl old bp size)) by (apply update_repr; assumption).
  pose proof (re_wf _ _ _ _ _ R2) as W2.
  change (finalize_error E a (Some 0%nat) hm hmac_size) with (finalize_error E a (Some (length old + length news)%nat) hm hmac_size).
  destruct (finalize_error E a (Some (length old + length news)%nat) hm hmac_size) as [k|] eqn:Ef.
  { left. split; [reflexivity|]. exists [k; E_RUNTIME_FINALIZE_FAILED], c2, (fs1 ++ fs2).
    split; [reflexivity|]. split; [now apply Forall_app|]. split; [assumption|].
    erewrite bind_done by exact Hinit. cbn [fst snd Z.eqb Pos.eqb negb].
    erewrite bind_done by exact Hup1. cbn [Z.eqb Pos.eqb negb].
    erewrite bind_done by exact Hup2. cbn [Z.eqb Pos.eqb negb].
    erewrite bind_done by (apply finalize_rejects; exact Ef). rewrite err_st. cbn [Z.eqb Pos.eqb negb].
    erewrite bind_done by apply error_st. rewrite errs_add_add, <- app_assoc. reflexivity. }
  right. split; [reflexivity|]. split; [reflexivity|].
  destruct (finalize_error_none _ _ _ _ _ Ef) as (p' & hp & Hp & -> & Hh1 & Hh2). clear Hp.
  destruct (argl_cell _ _ _ HH) as (ch & l & Hch & Hlv & Hco & Hlen).
  destruct (finalize_st E a e old (news ++ [mk_cell true Heap (OCtx a c2)]) (S t) er ((rs ++ fs1) ++ fs2) (length news) c2 hp hmac_size l)
    as (f & Hf & Hfin); try assumption.
  { apply Hnc, W2. }
  { apply Hlast. }
  { apply get_st_old. eauto. }
  { apply nth_error_Some. congruence. }
  { lia. }
  exists bp, hp, l, ch, (fs1 ++ fs2 ++ [f]).
  do 6 (split; [reflexivity || assumption|]).
  split; [apply Forall_app; split; [assumption|apply Forall_app; split; [assumption|apply Forall_cons; [assumption|apply Forall_nil]]]|].
  erewrite bind_done by exact Hinit. cbn [fst snd Z.eqb Pos.eqb negb].
  erewrite bind_done by exact Hup1. cbn [Z.eqb Pos.eqb negb].
  erewrite bind_done by exact Hup2. cbn [Z.eqb Pos.eqb negb].
  erewrite bind_done by exact Hfin. cbn [Z.eqb Pos.eqb negb]. rewrite replace_app_last.
  rewrite <- (setl_length (fst hp) (OBytes (put l (snd hp) (digest_fn a c2))) old) at 1.
  erewrite bind_done by (apply free_st; apply Hlast).
  cbn [fst snd Z.eqb Pos.eqb negb]. rewrite replace_app_last.
  rewrite (digest_repr _ _ _ _ _ R2). unfold ret, dead. rewrite <- !app_assoc. reflexivity.
Qed.

(* ------------------------------------------------------------- on_error *)

Definition wiped (a : algid) : cell := dead (OBytes (repeat 0 (N.to_nat (hmac_block_size a)))).

Lemma clear_st : forall a old news t er rs j l,
  nth_error news j = Some (mk_cell true Heap (OBytes l)) -> length l = N.to_nat (hmac_block_size a) ->
  clear_and_free a (Some (length old + j)%nat) (st old news t er rs) = Done tt (st old (replace news j (wiped a)) t er rs).
Proof.
  intros a old news t er rs j l Hj Hl. unfold clear_and_free.
  assert (Hlt : (j < length news)%nat) by (apply nth_error_Some; congruence).
  erewrite bind_done by (eapply mset_st; eassumption).
  erewrite mfree_st by (apply replace_same; assumption). rewrite replace_replace. reflexivity.
Qed.

(* --------------------------------------------------- after the key is ready *)

Lemma setl_nth_same : forall p o old c, nth_error old p = Some c ->
  nth_error (setl p o old) p = Some (mk_cell (live c) (knd c) o).
Proof.
  intros p o old c H. unfold setl. rewrite H. apply replace_same. apply nth_error_Some. congruence.
Qed.
Lemma setl_nth_other : forall p q o old, p <> q -> nth_error (setl p o old) q = nth_error old q.
Proof. intros p q o old H. unfold setl. destruct (nth_error old p); [apply replace_other; congruence|reflexivity]. Qed.
Lemma setl_setl : forall p o o' old, setl p o' (setl p o old) = setl p o' old.
Proof.
  intros p o o' old. destruct (nth_error old p) as [c|] eqn:H.
  - unfold setl at 1. rewrite (setl_nth_same _ _ _ _ H). unfold setl. rewrite H, replace_replace. reflexivity.
  - unfold setl at 2 3. rewrite H. unfold setl. now rewrite H.
Qed.

Lemma get_old : forall old t er rs p,
  get_obj (st old [] t er rs) p = match nth_error old p with Some c => if live c then Some (content c) else None | None => None end.
Proof. intros. unfold get_obj, st. cbn [mem]. now rewrite app_nil_r. Qed.

Lemma argl_setl : forall old p c l l' q n, nth_error old p = Some c -> live c = true -> content c = OBytes l ->
  length l' = length l -> argl old q n -> argl (setl p (OBytes l') old) q n.
Proof.
  intros old p c l l' [q|] n Hp Hlv Hc Hl H; [|exact I]. destruct H as (lq & Hq & Hn).
  unfold argl, arg, accessible. rewrite get_old.
  unfold argl, arg, accessible in Hq. rewrite get_old in Hq.
  destruct (Nat.eq_dec (fst q) p) as [Heq|Hne]; [rewrite Heq in *|].
  - rewrite Hp, Hlv, Hc in Hq. injection Hq as <-. exists l'. rewrite (setl_nth_same _ _ _ _ Hp). cbn [live content].
    rewrite Hlv. split; [reflexivity|]. lia.
  - exists lq. rewrite setl_nth_other by congruence. now split.
Qed.

Lemma bytesl_put : forall old hp c l d n, nth_error old (fst hp) = Some c -> live c = true -> length d = N.to_nat n ->
  snd hp + n <= N.of_nat (length l) -> bytesl (setl (fst hp) (OBytes (put l (snd hp) d)) old) hp n = d.
Proof.
  intros old hp c l d n Hp Hlv Hd Hl. unfold bytesl, bytes_at. rewrite get_old, (setl_nth_same _ _ _ _ Hp).
  cbn [live content]. rewrite Hlv. unfold put.
  rewrite skipn_app, firstn_length, Nat.min_l by lia. rewrite Nat.sub_diag. cbn [skipn].
  rewrite (@skipn_all2 _ (N.to_nat (snd hp))) by (rewrite firstn_length; lia). cbn [app].
  rewrite firstn_app, Hd, Nat.sub_diag. cbn [firstn]. rewrite app_nil_r. apply firstn_all2. lia.
Qed.

Lemma put_over : forall l off d d', length d = length d' -> off + N.of_nat (length d) <= N.of_nat (length l) ->
  put (put l off d) off d' = put l off d'.
Proof.
  intros l off d d' H Hl. unfold put.
  assert (L : length (firstn (N.to_nat off) l) = N.to_nat off) by (rewrite firstn_length; lia).
  f_equal.
  - rewrite firstn_app, L, Nat.sub_diag, firstn_O, app_nil_r. apply firstn_all2. lia.
  - f_equal. rewrite skipn_app, L. rewrite (@skipn_all2 _ _ (firstn (N.to_nat off) l)) by lia. cbn [app].
    rewrite skipn_app. rewrite (@skipn_all2 _ _ d) by lia. cbn [app].
    replace (N.to_nat off + length d' - N.to_nat off - length d)%nat with 0%nat by lia. cbn [skipn]. now rewrite H.
Qed.

(* the code after hmac_key_data *)
Definition hmac_rest (E : env) (a : algid) (kd : nat)
             (buffer : option ptr) (size : N) (hmac : option ptr) (hmac_size : N) (e : bool) : M Z :=
  inner_padding <- allocate_bytes E (hmac_block_size a) ;;
  match inner_padding with
  | None => error_set e E_MEMORY_INSUFFICIENT ;;; hmac_on_error a None None None (Some kd)
  | Some ip =>
      mset (ip, 0) 0x36 (hmac_block_size a) ;;;
      outer_padding <- allocate_bytes E (hmac_block_size a) ;;
      match outer_padding with
      | None => error_set e E_MEMORY_INSUFFICIENT ;;; hmac_on_error a None None inner_padding (Some kd)
      | Some op =>
          mset (op, 0) 0x5c (hmac_block_size a) ;;;
          hmac_xor ip op kd (N.to_nat (hmac_block_size a)) ;;;
          r <- hmac_pass E a ip buffer size hmac hmac_size e ;;
          match r with
          | Some context => hmac_on_error a context outer_padding inner_padding (Some kd)
          | None =>
              r <- hmac_pass E a op hmac (a_hs (alg_of a)) hmac hmac_size e ;;
              match r with
              | Some context => hmac_on_error a context outer_padding inner_padding (Some kd)
              | None =>
                  mset (op, 0) 0 (hmac_block_size a) ;;;
                  mfree op ;;;
                  mset (ip, 0) 0 (hmac_block_size a) ;;;
                  mfree ip ;;;
                  mset (kd, 0) 0 (hmac_block_size a) ;;;
                  mfree kd ;;;
                  ret 1%Z
              end
          end
      end
  end.

Definition code_inner (a : algid) (K0 text : list N) : list N :=
  code_hash a (a_iv (alg_of a)) 0 (map (N.lxor 0x36) K0 ++ text).
Definition code_outer (a : algid) (K0 text : list N) : list N :=
  code_hash a (a_iv (alg_of a)) 0 (map (N.lxor 0x5c) K0 ++ code_inner a K0 text).

(* what is left of a cell made during the call *)
Definition clean_cell (a : algid) (c : cell) : Prop :=
  c = wiped a \/ exists x, c = dead (OCtx a x).
Definition erased_cell (a : algid) (c : cell) : Prop :=
  c = wiped a \/ c = dead (OCtx a (zero_ctx (alg_of a))).
Lemma erased_clean : forall a c, erased_cell a c -> clean_cell a c.
Proof. intros a c [H|H]; [left|right; eexists]; exact H. Qed.

Definition out_at (old : list cell) (hm : option ptr) (hmac_size : N) (d : list N) (old' : list cell) : Prop :=
  exists hp l ch, hm = Some hp /\ nth_error old (fst hp) = Some ch /\ live ch = true /\
  content ch = OBytes l /\ snd hp + hmac_size <= N.of_nat (length l) /\
  old' = setl (fst hp) (OBytes (put l (snd hp) d)) old.

(* how calculate_hmac ends after key_data is filled from a key with K0 as result *)
Definition rest_end (E : env) (a : algid) (K0 : list N) (old : list cell) (buffer : option ptr) (size : N)
  (hm : option ptr) (hmac_size : N) (t t' : nat) (r : Z) (old' news' : list cell) (ks : list err) : Prop :=
  (r = 1%Z /\ ks = [] /\ Forall (erased_cell a) news' /\ (forall i, (t <= i < t')%nat -> alloc_ok E i = true) /\
   calculate_ctx_error E a buffer size hm hmac_size = None /\
   exists bp, buffer = Some bp /\ out_at old hm hmac_size (code_outer a K0 (bytesl old bp size)) old')
  \/
  (r = (-1)%Z /\ ks <> [] /\ Forall (clean_cell a) news' /\ old' = old /\
   (calculate_ctx_error E a buffer size hm hmac_size <> None \/ (exists i, (t <= i < t')%nat /\ alloc_ok E i = false)))
  \/
  (r = (-1)%Z /\ ks <> [] /\ Forall (erased_cell a) news' /\ (exists i, (t <= i < t')%nat /\ alloc_ok E i = false) /\
   calculate_ctx_error E a buffer size hm hmac_size = None /\
   exists bp, buffer = Some bp /\ out_at old hm hmac_size (code_inner a K0 (bytesl old bp size)) old').

Lemma junk_length : forall E i n, length (junk_bytes E i n) = N.to_nat n.
Proof. intros. unfold junk_bytes. now rewrite map_length, seq_length. Qed.
Lemma junk_byte : forall E i n, Forall is_byte (junk_bytes E i n).
Proof.
  intros. unfold junk_bytes. apply Forall_forall. intros x Hx. apply in_map_iff in Hx. destruct Hx as (j & <- & _).
  apply N.mod_lt. discriminate.
Qed.

Lemma lxor_bytes : forall v l, is_byte v -> Forall is_byte l -> Forall is_byte (map (N.lxor v) l).
Proof.
  intros v l Hv H. apply Forall_forall. intros x Hx. apply in_map_iff in Hx. destruct Hx as (y & <- & Hy).
  rewrite Forall_forall in H. specialize (H _ Hy). unfold is_byte in *.
  change 256 with (2 ^ 8) in *. apply word_lxor; assumption.
Qed.

Lemma alloc_bytes_st : forall E n old news t er rs,
  allocate_bytes E n (st old news t er rs) =
  if alloc_ok E t
  then Done (Some (length old + length news)%nat)
         (st old (news ++ [mk_cell true Heap (OBytes (junk_bytes E (length old + length news) n))]) (S t) er rs)
  else Done None (st old news (S t) er rs).
Proof. intros. unfold allocate_bytes. rewrite alloc_st. unfold st. cbn [mem]. now rewrite app_length. Qed.

Lemma st_split : forall old pre news t er rs, st (old ++ pre) news t er rs = st old (pre ++ news) t er rs.
Proof. intros. unfold st. now rewrite app_assoc. Qed.

Lemma argl_app : forall old pre p n, argl old p n -> argl (old ++ pre) p n.
Proof.
  intros old pre [p|] n H; [|exact I]. unfold argl, arg. rewrite st_split. apply argl_st. assumption.
Qed.
Lemma bytesl_app : forall old pre p n, argl old (Some p) n -> bytesl (old ++ pre) p n = bytesl old p n.
Proof. intros. unfold bytesl at 1. rewrite st_split. apply argl_st. assumption. Qed.
Lemma setl_app : forall p o old pre, (p < length old)%nat -> setl p o (old ++ pre) = setl p o old ++ pre.
Proof.
  intros. unfold setl. rewrite nth_error_app1 by assumption. destruct (nth_error old p); [|reflexivity].
  apply replace_app_l. assumption.
Qed.

Ltac fall := repeat (first [assumption | apply Forall_app; split | apply Forall_cons; [|] | apply Forall_nil]).

(* how many allocations the part after key_data attempts when the first is number t, and its error entries *)
Definition rest_code (E : env) (a : algid) (buffer : option ptr) (size : N) (hm : option ptr) (hmac_size : N) (t : nat) : nat * list err :=
  if alloc_ok E t then
    if alloc_ok E (S t) then
      if alloc_ok E (S (S t)) then
        match calculate_ctx_error E a buffer size hm hmac_size with
        | Some ks => (S (S (S t)), ks)
        | None => (S (S (S (S t))), if alloc_ok E (S (S (S t))) then [] else [E_MEMORY_INSUFFICIENT; E_RUNTIME_INITIALIZE_FAILED])
        end
      else (S (S (S t)), [E_MEMORY_INSUFFICIENT; E_RUNTIME_INITIALIZE_FAILED])
    else (S (S t), [E_MEMORY_INSUFFICIENT])
  else (S t, [E_MEMORY_INSUFFICIENT]).
Ltac code := unfold rest_code; repeat match goal with H : alloc_ok _ _ = _ |- _ => rewrite H | H : calculate_ctx_error _ _ _ _ _ _ = _ |- _ => rewrite H end; reflexivity.

Lemma rest_st : forall E a e old cs t er rs khl K0 buffer size hm hmac_size,
  Forall cell_ok old -> Forall (erased_cell a) cs -> Forall is_byte khl -> Forall is_byte K0 ->
  length K0 = N.to_nat (hmac_block_size a) ->
  argl old buffer size -> argl old hm hmac_size ->
  let kh := mk_cell true Stack (OBytes khl) in
  let kd := mk_cell true Heap (OBytes K0) in
  exists r old' news' t' ks fs,
  hmac_rest E a (length old + 1) buffer size hm hmac_size e (st old (kh :: kd :: cs) t er rs) =
  Done r (st old' (kh :: news') t' (errs_add e er ks) (rs ++ fs)) /\ length old' = length old /\
  Forall (frame_clean a) fs /\ (t <= t')%nat /\ rest_code E a buffer size hm hmac_size t = (t', ks) /\ rest_end E a K0 old buffer size hm hmac_size t t' r old' news' ks.
Proof.
  intros E a e old cs t er rs khl K0 buffer size hm hmac_size Ho Hcs Bkh BK LK HB HH kh kd.
  set (B := N.to_nat (hmac_block_size a)) in *.
  assert (Hpre : Forall cell_ok (kh :: kd :: cs)).
  { apply Forall_cons; [intros _; exact Bkh|]. apply Forall_cons; [intros _; exact BK|].
    eapply Forall_impl; [|exact Hcs]. intros c [->| ->] Hc; discriminate Hc. }
  set (pre := kh :: kd :: cs) in *.
  assert (Hold2 : Forall cell_ok (old ++ pre)) by (now apply Forall_app).
  assert (Lold2 : (length old + 1 < length (old ++ pre))%nat).
  { rewrite app_length. unfold pre. cbn [length]. lia. }
  assert (Gkd : forall old1 news t er rs, length old1 = length old ->
            get_obj (st (old1 ++ pre) news t er rs) (length old + 1) = Some (OBytes K0)).
  { intros old1 news t1 er1 rs1 HL. rewrite <- HL, st_split. eapply get_st_new. reflexivity. }
  (* what clearing key_data does *)
  assert (Hkd : forall old1 news t er rs, length old1 = length old ->
     clear_and_free a (Some (length old + 1)%nat) (st (old1 ++ pre) news t er rs)
     = Done tt (st old1 (kh :: (wiped a :: cs) ++ news) t er rs)).
  { intros old1 news t1 er1 rs1 HL. rewrite <- HL, st_split. erewrite clear_st; [reflexivity|reflexivity|exact LK]. }
  replace (st old pre t er rs) with (st (old ++ pre) [] t er rs) by (rewrite st_split, app_nil_r; reflexivity).
  unfold hmac_rest.
  (* inner padding *)
  unfold bind at 1. rewrite alloc_bytes_st. destruct (alloc_ok E t) eqn:A1.
  2: { erewrite bind_done by apply error_st. unfold hmac_on_error. rewrite bind_ret. unfold clear_and_free at 1 2. rewrite !bind_ret.
       erewrite bind_done by (apply Hkd; reflexivity).
       exists (-1)%Z, old, (wiped a :: cs), (S t), [E_MEMORY_INSUFFICIENT], [].
       rewrite !app_nil_r. split; [reflexivity|]. split; [reflexivity|]. split; [fall|]. split; [lia|]. split; [code|]. right. left.
       split; [reflexivity|]. split; [discriminate|]. split; [|split; [reflexivity|right; exists t; split; [lia|assumption]]].
       apply Forall_cons; [now left|]. eapply Forall_impl; [apply erased_clean|exact Hcs]. }
  cbn [length app].
  erewrite bind_done by (eapply mset_st; [reflexivity|apply junk_length]). fold B. cbn [replace].
  (* outer padding *)
  unfold bind at 1. rewrite alloc_bytes_st. destruct (alloc_ok E (S t)) eqn:A2.
  2: { erewrite bind_done by apply error_st. unfold hmac_on_error. rewrite bind_ret. unfold clear_and_free at 1. rewrite bind_ret.
       erewrite bind_done by (eapply clear_st; [reflexivity|apply repeat_length]). cbn [replace].
       erewrite bind_done by (apply Hkd; reflexivity).
       exists (-1)%Z, old, ((wiped a :: cs) ++ [wiped a]), (S (S t)), [E_MEMORY_INSUFFICIENT], [].
       rewrite (app_nil_r rs). split; [reflexivity|]. split; [reflexivity|]. split; [fall|]. split; [lia|]. split; [code|]. right. left.
       split; [reflexivity|]. split; [discriminate|]. split; [|split; [reflexivity|right; exists (S t); split; [lia|assumption]]].
       apply Forall_app. split; [apply Forall_cons; [now left|]|apply Forall_cons; [now left|apply Forall_nil]].
       eapply Forall_impl; [apply erased_clean|exact Hcs]. }
  cbn [length app].
  erewrite bind_done by (eapply mset_st; [reflexivity|apply junk_length]). fold B. cbn [replace].
  (* xor *)
  erewrite bind_done.
  2: { eapply xor_steps; [lia|lia|lia|eapply get_st_new; reflexivity|eapply get_st_new; reflexivity|apply Gkd; reflexivity
       |rewrite repeat_length; lia|rewrite repeat_length; lia|lia]. }
  fold B. rewrite !xorn_repeat by assumption.
  erewrite set_st_new by reflexivity. cbn [replace live knd].
  erewrite set_st_new by reflexivity. cbn [replace live knd].
  set (ik := map (N.lxor 54) K0). set (ok := map (N.lxor 92) K0).
  set (ip := mk_cell true Heap (OBytes ik)). set (op := mk_cell true Heap (OBytes ok)).
  assert (Lik : length ik = N.to_nat (hmac_block_size a)) by (unfold ik; now rewrite map_length).
  assert (Lok : length ok = N.to_nat (hmac_block_size a)) by (unfold ok; now rewrite map_length).
  assert (Hip : cell_ok ip) by (intros _; apply lxor_bytes; [reflexivity|assumption]).
  assert (Hop : cell_ok op) by (intros _; apply lxor_bytes; [reflexivity|assumption]).
  (* first pass *)
  destruct (pass_st E a e (old ++ pre) [ip; op] (S (S t)) er rs 0 ik buffer size hm hmac_size) as
    [(A3 & HR)|[(A3 & ks & c & fs & HE & Hfs & Wc & HR)|(A3 & HE & bp & hp & l & ch & fs & -> & -> & Hch & Hlv & Hco & Hlen & Hfs & HR)]];
    try assumption; try reflexivity; try (apply argl_app; assumption); [fall| | |].
  { erewrite bind_done by exact HR. unfold hmac_on_error. rewrite bind_ret.
    erewrite bind_done by (eapply clear_st; [reflexivity|exact Lok]). cbn [replace].
    erewrite bind_done by (eapply clear_st; [reflexivity|exact Lik]). cbn [replace].
    erewrite bind_done by (apply Hkd; reflexivity).
    exists (-1)%Z, old, ((wiped a :: cs) ++ [wiped a; wiped a]), (S (S (S t))), [E_MEMORY_INSUFFICIENT; E_RUNTIME_INITIALIZE_FAILED], [].
    rewrite (app_nil_r rs). split; [reflexivity|]. split; [reflexivity|]. split; [fall|]. split; [lia|]. split; [code|]. right. left.
    split; [reflexivity|]. split; [discriminate|]. split; [|split; [reflexivity|right; exists (S (S t)); split; [lia|assumption]]].
    apply Forall_app. split; [apply Forall_cons; [now left|]|apply Forall_cons; [now left|apply Forall_cons; [now left|apply Forall_nil]]].
    eapply Forall_impl; [apply erased_clean|exact Hcs]. }
  { erewrite bind_done by exact HR. unfold hmac_on_error. cbn [length app]. rewrite bind_assoc.
    erewrite bind_done by (apply free_st; reflexivity). cbn [replace]. rewrite bind_ret.
    erewrite bind_done by (eapply clear_st; [reflexivity|exact Lok]). cbn [replace].
    erewrite bind_done by (eapply clear_st; [reflexivity|exact Lik]). cbn [replace].
    erewrite bind_done by (apply Hkd; reflexivity).
    exists (-1)%Z, old, ((wiped a :: cs) ++ [wiped a; wiped a; dead (OCtx a c)]), (S (S (S t))), ks, fs.
    split; [reflexivity|]. split; [reflexivity|]. split; [assumption|]. split; [lia|]. split; [code|]. right. left.
    split; [reflexivity|]. split.
    { intros ->. revert HE. unfold calculate_ctx_error. destruct update_error; [discriminate|]. destruct finalize_error; discriminate. }
    split; [|split; [reflexivity|left; congruence]].
    apply Forall_app. split; [apply Forall_cons; [now left|]|].
    { eapply Forall_impl; [apply erased_clean|exact Hcs]. }
    apply Forall_cons; [now left|]. apply Forall_cons; [now left|]. apply Forall_cons; [right; eexists; reflexivity|]. apply Forall_nil. }
  erewrite bind_done by exact HR.
  rewrite (bytesl_app old pre bp size) in * by assumption.
  set (I := code_hash a (a_iv (alg_of a)) 0 (ik ++ bytesl old bp size)) in *.
  destruct (argl_cell _ _ _ HH) as (ch' & l' & Hch' & Hlv' & Hco' & Hlen').
  assert (Hlt : (fst hp < length old)%nat) by (apply nth_error_Some; congruence).
  rewrite nth_error_app1 in Hch by assumption.
  assert (ch' = ch) by congruence. subst ch'. assert (l' = l) by congruence. subst l'. clear Hch' Hlv' Hco' Hlen'.
  rewrite setl_app by assumption.
  assert (HC : finalize_error E a (Some 0%nat) (Some hp) hmac_size = None).
  { revert HE. unfold calculate_ctx_error. destruct update_error; [discriminate|]. destruct finalize_error; [discriminate|reflexivity]. }
  destruct (finalize_error_none _ _ _ _ _ HC) as (p0 & hp0 & _ & _ & Hm1 & Hm2).
  set (dz := dead (OCtx a (zero_ctx (alg_of a)))) in *.
  assert (LI : length I = N.to_nat (a_hs (alg_of a))) by (apply code_hash_length, iv_ok).
  assert (Lput : length (put l (snd hp) I) = length l) by (apply put_length; lia).
  assert (BI : Forall is_byte I) by apply code_hash_bytes.
  set (old1 := setl (fst hp) (OBytes (put l (snd hp) I)) old) in *.
  assert (L1 : length old1 = length old) by apply setl_length.
  assert (Hold1 : Forall cell_ok old1).
  { apply setl_ok; [assumption|]. apply Forall_put; [|assumption].
    rewrite Forall_forall in Ho. specialize (Ho _ (nth_error_In _ _ Hch) Hlv). rewrite Hco in Ho. exact Ho. }
  assert (Hold3 : Forall cell_ok (old1 ++ pre)) by (now apply Forall_app).
  assert (HH1 : argl old1 (Some hp) hmac_size) by (eapply argl_setl; eassumption).
  assert (HH2 : argl old1 (Some hp) (a_hs (alg_of a))).
  { destruct HH1 as (lx & Hx & Hlx). exists lx. split; [assumption|]. lia. }
  assert (Hdz : cell_ok dz) by (intros Hx; discriminate Hx).
  assert (LL : length (old ++ pre) = length (old1 ++ pre)) by (rewrite !app_length; lia).
  assert (HO : forall d, out_at old (Some hp) hmac_size d (setl (fst hp) (OBytes (put l (snd hp) d)) old)).
  { intros d. exists hp, l, ch. repeat split; try assumption. }
  rewrite LL. cbn [app].
  destruct (pass_st E a e (old1 ++ pre) [ip; op; dz] (S (S (S t))) er (rs ++ fs) 1 ok (Some hp) (a_hs (alg_of a)) (Some hp) hmac_size) as
    [(A4 & HR2)|[(A4 & ks & c & fs2 & HE2 & Hfs2 & Wc2 & HR2)|(A4 & HE2 & bp2 & hp2 & l2 & ch2 & fs2 & Hb2 & Hp2 & Hch2 & Hlv2 & Hco2 & Hlen2 & Hfs2 & HR2)]];
    try assumption; try reflexivity; try (apply argl_app; assumption); [fall| | |].
  { erewrite bind_done by exact HR2. unfold hmac_on_error. rewrite bind_ret.
    erewrite bind_done by (eapply clear_st; [reflexivity|exact Lok]). cbn [replace].
    erewrite bind_done by (eapply clear_st; [reflexivity|exact Lik]). cbn [replace].
    erewrite bind_done by (apply Hkd; assumption).
    exists (-1)%Z, old1, ((wiped a :: cs) ++ [wiped a; wiped a; dz]), (S (S (S (S t)))), [E_MEMORY_INSUFFICIENT; E_RUNTIME_INITIALIZE_FAILED], fs.
    split; [reflexivity|]. split; [assumption|]. split; [assumption|]. split; [lia|]. split; [code|]. right. right.
    split; [reflexivity|]. split; [discriminate|].
    split; [|split; [exists (S (S (S t))); split; [lia|assumption]|split; [assumption|exists bp; split; [reflexivity|apply HO]]]].
    apply Forall_app. split; [apply Forall_cons; [now left|assumption]|].
    apply Forall_cons; [now left|apply Forall_cons; [now left|apply Forall_cons; [now right|apply Forall_nil]]]. }
  { exfalso. revert HE2. unfold calculate_ctx_error. rewrite HC. cbn [update_error].
    destruct (N.ltb_spec (ssize_max E) (a_hs (alg_of a))); [|discriminate].
    pose proof (hs_lt_block a). pose proof (block_le_max E a). lia. }
  injection Hb2 as <-. injection Hp2 as <-.
  erewrite bind_done by exact HR2.
  rewrite nth_error_app1 in Hch2 by lia. unfold old1 in Hch2. rewrite (setl_nth_same _ _ _ _ Hch) in Hch2.
  injection Hch2 as <-. cbn [content] in Hco2. injection Hco2 as <-.
  rewrite bytesl_app by assumption. 
  assert (HbI : bytesl old1 hp (a_hs (alg_of a)) = I) by (apply (bytesl_put old hp ch); (assumption || lia)).
  rewrite HbI.
  set (O := code_hash a (a_iv (alg_of a)) 0 (ok ++ I)).
  assert (LO : length O = N.to_nat (a_hs (alg_of a))) by (apply code_hash_length, iv_ok).
  rewrite put_over by lia. fold old1. rewrite setl_app by lia. unfold old1. rewrite setl_setl.
  set (old2 := setl (fst hp) (OBytes (put l (snd hp) O)) old). 
  assert (L2 : length old2 = length old) by apply setl_length.
  fold old1. replace (length (old1 ++ pre)) with (length (old2 ++ pre)) by (rewrite !app_length; lia).
  cbn [app].
  erewrite bind_done by (eapply mset_st; [reflexivity|exact Lok]). cbn [replace].
  erewrite bind_done by (eapply mfree_st; reflexivity). cbn [replace].
  erewrite bind_done by (eapply mset_st; [reflexivity|exact Lik]). cbn [replace].
  erewrite bind_done by (eapply mfree_st; reflexivity). cbn [replace].
  rewrite <- bind_assoc.
  erewrite bind_done by (apply (Hkd old2); assumption).
  exists 1%Z, old2, ((wiped a :: cs) ++ [wiped a; wiped a; dz; dz]), (S (S (S (S t)))), [], (fs ++ fs2).
  split; [unfold ret, errs_add; destruct e; rewrite ?app_nil_r, <- app_assoc; reflexivity|].
  split; [assumption|]. split; [now apply Forall_app|]. split; [lia|]. split; [code|]. left.
  split; [reflexivity|]. split; [reflexivity|]. split.
  { apply Forall_app. split; [apply Forall_cons; [now left|assumption]|].
    repeat (apply Forall_cons; [(now left) || (now right)|]). apply Forall_nil. }
  split.
  { intros i Hi. assert (i = t \/ i = S t \/ i = S (S t) \/ i = S (S (S t)))%nat as [->|[->|[->| ->]]] by lia; assumption. }
  split; [assumption|]. exists bp. split; [reflexivity|]. apply HO.
Qed.

(* ------------------------------------------------------------ calculate_hmac *)

Definition hmac_entry_error (E : env) (a : algid) (key : option ptr) (key_size hmac_size : N) : option err :=
  match key with
  | None => Some E_ARGUMENT_INVALID_VALUE
  | Some _ => if ssize_max E <? key_size then Some E_ARGUMENT_VALUE_EXCEEDS_MAXIMUM
              else if hmac_size <? a_hs (alg_of a) then Some E_ARGUMENT_VALUE_TOO_SMALL else None
  end.

Definition hmac_end (E : env) (a : algid) (old : list cell) (key : option ptr) (key_size : N) (buffer : option ptr) (size : N)
  (hm : option ptr) (hmac_size : N) (t t' : nat) (r : Z) (old' news' : list cell) (khl : list N) (ks : list err) : Prop :=
  (r = 1%Z /\ ks = [] /\ Forall (erased_cell a) news' /\ (forall i, (t <= i < t')%nat -> alloc_ok E i = true) /\
   hmac_entry_error E a key key_size hmac_size = None /\
   calculate_ctx_error E a buffer size hm hmac_size = None /\
   exists kp bp, key = Some kp /\ buffer = Some bp /\
   out_at old hm hmac_size (code_outer a (code_hmac_key a (bytesl old kp key_size)) (bytesl old bp size)) old' /\
   khl = (if key_size <=? hmac_block_size a then junk_bytes E (length old) (a_hs (alg_of a))
          else code_hash a (a_iv (alg_of a)) 0 (bytesl old kp key_size)))
  \/
  (r = (-1)%Z /\ ks <> [] /\ Forall (clean_cell a) news' /\ old' = old /\
   (hmac_entry_error E a key key_size hmac_size <> None \/
    calculate_ctx_error E a buffer size hm hmac_size <> None \/ (exists i, (t <= i < t')%nat /\ alloc_ok E i = false)))
  \/
  (r = (-1)%Z /\ ks <> [] /\ Forall (erased_cell a) news' /\ (exists i, (t <= i < t')%nat /\ alloc_ok E i = false) /\
   hmac_entry_error E a key key_size hmac_size = None /\
   calculate_ctx_error E a buffer size hm hmac_size = None /\
   exists kp bp, key = Some kp /\ buffer = Some bp /\
   out_at old hm hmac_size (code_inner a (code_hmac_key a (bytesl old kp key_size)) (bytesl old bp size)) old').

Lemma pop_st : forall old news t er rs o,
  pop_local (length old + 0) (st old (mk_cell true Stack o :: news) t er rs)
  = Done tt (st old (mk_cell false Stack o :: news) t er rs).
Proof.
  intros. unfold pop_local, st. cbn [mem]. rewrite nth_error_app2 by lia.
  replace (length old + 0 - length old)%nat with 0%nat by lia. cbn [nth_error].
  unfold set_mem. cbn [tries errs resid]. do 2 f_equal. rewrite Nat.add_0_r.
  induction old; [reflexivity|]. cbn. now rewrite IHold.
Qed.

Lemma code_key_length : forall a k, length (code_hmac_key a k) = N.to_nat (hmac_block_size a).
Proof.
  intros. unfold code_hmac_key, hmac_key. rewrite app_length, repeat_length.
  destruct (Nat.ltb_spec (N.to_nat (hmac_block_size a)) (length k)).
  - rewrite code_hash_length by apply iv_ok. pose proof (hs_lt_block a). lia.
  - lia.
Qed.
Lemma code_key_bytes : forall a k, Forall is_byte k -> Forall is_byte (code_hmac_key a k).
Proof.
  intros a k H. unfold code_hmac_key, hmac_key. apply Forall_app. split.
  - destruct Nat.ltb; [apply code_hash_bytes|assumption].
  - apply Forall_forall. intros x Hx. apply repeat_spec in Hx. subst. reflexivity.
Qed.

(* the same for the whole of calculate_hmac *)
Definition hmac_code (E : env) (a : algid) (key : option ptr) (key_size : N) (buffer : option ptr) (size : N)
  (hm : option ptr) (hmac_size : N) (t : nat) : nat * list err :=
  match hmac_entry_error E a key key_size hmac_size with
  | Some k => (t, [k])
  | None =>
      if alloc_ok E t then
        if key_size <=? hmac_block_size a then rest_code E a buffer size hm hmac_size (S t)
        else if alloc_ok E (S t) then rest_code E a buffer size hm hmac_size (S (S t))
        else (S (S t), [E_MEMORY_INSUFFICIENT; E_RUNTIME_INITIALIZE_FAILED])
      else (S t, [E_MEMORY_INSUFFICIENT])
  end.
Ltac hcode := unfold hmac_code; repeat match goal with H : alloc_ok _ _ = _ |- _ => rewrite H | H : hmac_entry_error _ _ _ _ _ = _ |- _ => rewrite H end;
  repeat match goal with |- context [?x <=? ?y] => destruct (N.leb_spec x y); try lia end; try reflexivity; try assumption.

Lemma hmac_st_code : forall E a key key_size buffer size hm hmac_size e old t er rs,
  Forall cell_ok old -> argl old key key_size -> argl old buffer size -> argl old hm hmac_size ->
  exists r old' news' khl t' ks fs,
  calculate_hmac E a key key_size buffer size hm hmac_size e (st old [] t er rs) =
  Done r (st old' (mk_cell false Stack (OBytes khl) :: news') t' (errs_add e er ks) (rs ++ fs)) /\
  length old' = length old /\ Forall (frame_clean a) fs /\ (t <= t')%nat /\
  hmac_code E a key key_size buffer size hm hmac_size t = (t', ks) /\
  hmac_end E a old key key_size buffer size hm hmac_size t t' r old' news' khl ks.
Proof.
  intros E a key key_size buffer size hm hmac_size e old t er rs Ho HK HB HH.
  unfold calculate_hmac. set (j0 := junk_bytes E (length old) (a_hs (alg_of a))).
  assert (HP : (fun s => push_local (OBytes (junk_bytes E (length (mem s)) (a_hs (alg_of a)))) s) (st old [] t er rs) =
    Done (length old + 0)%nat (st old [mk_cell true Stack (OBytes j0)] t er rs)).
  { unfold push_local, st, set_mem. cbn [mem tries errs resid]. rewrite app_nil_r, Nat.add_0_r. reflexivity. }
  erewrite bind_done by exact HP. clear HP.
  set (kh := mk_cell true Stack (OBytes j0)).
  unfold calculate_hmac_body.
  destruct (hmac_entry_error E a key key_size hmac_size) as [k|] eqn:EE.
  { exists (-1)%Z, old, [], j0, t, [k], [].
    split.
    - rewrite app_nil_r. unfold hmac_entry_error in EE. destruct key as [kp|].
      2: { injection EE as <-. erewrite bind_done by (rewrite fail_eq; reflexivity). rewrite err_st.
           erewrite bind_done by apply pop_st. reflexivity. }
      destruct (ssize_max E <? key_size).
      { injection EE as <-. erewrite bind_done by (rewrite fail_eq; reflexivity). rewrite err_st.
        erewrite bind_done by apply pop_st. reflexivity. }
      destruct (hmac_size <? a_hs (alg_of a)); [|discriminate].
      injection EE as <-. erewrite bind_done by (rewrite fail_eq; reflexivity). rewrite err_st.
      erewrite bind_done by apply pop_st. reflexivity.
    - split; [reflexivity|]. split; [apply Forall_nil|]. split; [lia|]. split; [hcode|]. right. left.
      split; [reflexivity|]. split; [discriminate|]. split; [apply Forall_nil|]. split; [reflexivity|]. left. congruence. }
  pose proof EE as EE'. unfold hmac_entry_error in EE. destruct key as [kp|]; [|discriminate].
  destruct (N.ltb_spec (ssize_max E) key_size) as [|Hks]; [discriminate|].
  destruct (N.ltb_spec hmac_size (a_hs (alg_of a))) as [|Hhs]; [discriminate|]. clear EE.
  rewrite bind_assoc.
  destruct (alloc_ok E t) eqn:A1.
  2: { erewrite bind_done by (rewrite alloc_bytes_st, A1; reflexivity).
       exists (-1)%Z, old, [], j0, (S t), [E_MEMORY_INSUFFICIENT], []. split.
       - rewrite app_nil_r. rewrite bind_assoc. erewrite bind_done by apply error_st.
         unfold hmac_on_error. rewrite bind_assoc, bind_ret. unfold clear_and_free. rewrite !bind_assoc, bind_ret, bind_assoc, bind_ret, bind_assoc, bind_ret, bind_ret.
         erewrite bind_done by apply pop_st. reflexivity.
       - split; [reflexivity|]. split; [apply Forall_nil|]. split; [lia|]. split; [hcode|]. right. left.
         split; [reflexivity|]. split; [discriminate|]. split; [apply Forall_nil|]. split; [reflexivity|].
         right. right. exists t. split; [lia|assumption]. }
  erewrite bind_done by (rewrite alloc_bytes_st, A1; reflexivity).
  cbn [length app]. rewrite bind_assoc.
  set (kd0 := junk_bytes E (length old + 1) (hmac_block_size a)).
  set (K := bytesl old kp key_size).
  assert (HbK : Forall is_byte K) by (apply argl_bytes; assumption).
  destruct (key_data_st E a e old (S t) er rs kp key_size j0 kd0) as [(Hsz & HR)|[(Hsz & A2 & HR)|(Hsz & A2 & fs & Hfs & HR)]];
    try assumption; try apply junk_length; try apply junk_byte.
  - erewrite bind_done by exact HR. fold K.
    destruct (rest_st E a e old [] (S t) er rs j0 (code_hmac_key a K) buffer size hm hmac_size) as
      (r & old' & news' & t' & ks & fs & HRR & HL & Hfs & Ht & HC & HE); try assumption; try apply junk_byte; try apply code_key_length;
      [apply Forall_nil|now apply code_key_bytes|].
    exists r, old', news', j0, t', ks, fs.
    split.
    { change (bind (hmac_rest E a (length old + 1) buffer size hm hmac_size e) (fun r => pop_local (length old + 0) ;;; ret r)
         (st old [mk_cell true Stack (OBytes j0); mk_cell true Heap (OBytes (code_hmac_key a K))] (S t) er rs) =
         Done r (st old' (mk_cell false Stack (OBytes j0) :: news') t' (errs_add e er ks) (rs ++ fs))).
      erewrite bind_done by exact HRR. rewrite <- HL. erewrite bind_done by apply pop_st. reflexivity. }
    split; [assumption|]. split; [assumption|]. split; [lia|]. split; [hcode|].
    destruct HE as [(Hr & Hk & Hn & Ha & He & bp & Hbp & Hout)|[(Hr & Hk & Hn & Heq & Hwhy)|(Hr & Hk & Hn & Ha & He & bp & Hbp & Hout)]].
    + left. repeat split; try assumption.
      * intros i Hi. destruct (Nat.eq_dec i t) as [->|]; [assumption|]. apply Ha. lia.
      * exists kp, bp. repeat split; try assumption. destruct (N.leb_spec key_size (hmac_block_size a)); [reflexivity|lia].
    + right. left. repeat split; try assumption. right. destruct Hwhy as [H|(i & Hi & H)]; [now left|].
      right. exists i. split; [lia|assumption].
    + right. right. repeat split; try assumption.
      * destruct Ha as (i & Hi & H). exists i. split; [lia|assumption].
      * exists kp, bp. repeat split; assumption.
  - erewrite bind_done by exact HR. 
    exists (-1)%Z, old, [wiped a], j0, (S (S t)), [E_MEMORY_INSUFFICIENT; E_RUNTIME_INITIALIZE_FAILED], []. split.
    + rewrite app_nil_r. unfold hmac_on_error. rewrite bind_assoc, bind_ret. unfold clear_and_free at 1 2.
      rewrite bind_assoc, bind_ret, bind_assoc, bind_ret, bind_assoc.
      erewrite bind_done by (eapply clear_st; [reflexivity|apply junk_length]). cbn [replace].
      rewrite bind_ret. erewrite bind_done by apply pop_st. reflexivity.
    + split; [reflexivity|]. split; [apply Forall_nil|]. split; [lia|]. split; [hcode|]. right. left.
      split; [reflexivity|]. split; [discriminate|]. split; [apply Forall_cons; [now left|apply Forall_nil]|]. split; [reflexivity|].
      right. right. exists (S t). split; [lia|assumption].
  - erewrite bind_done by exact HR. fold K.
    destruct (rest_st E a e old [dead (OCtx a (zero_ctx (alg_of a)))] (S (S t)) er (rs ++ fs) (code_hash a (a_iv (alg_of a)) 0 K)
                (code_hmac_key a K) buffer size hm hmac_size) as
      (r & old' & news' & t' & ks & fs' & HRR & HL & Hfs' & Ht & HC & HE); try assumption; try apply code_hash_bytes; try apply code_key_length;
      [apply Forall_cons; [now right|apply Forall_nil]|now apply code_key_bytes|].
    exists r, old', news', (code_hash a (a_iv (alg_of a)) 0 K), t', ks, (fs ++ fs').
    split.
    { change (bind (hmac_rest E a (length old + 1) buffer size hm hmac_size e) (fun r => pop_local (length old + 0) ;;; ret r)
         (st old [mk_cell true Stack (OBytes (code_hash a (a_iv (alg_of a)) 0 K)); mk_cell true Heap (OBytes (code_hmac_key a K));
                  dead (OCtx a (zero_ctx (alg_of a)))] (S (S t)) er (rs ++ fs)) =
         Done r (st old' (mk_cell false Stack (OBytes (code_hash a (a_iv (alg_of a)) 0 K)) :: news') t' (errs_add e er ks) (rs ++ fs ++ fs'))).
      erewrite bind_done by exact HRR. rewrite <- HL. erewrite bind_done by apply pop_st. rewrite <- app_assoc. reflexivity. }
    split; [assumption|]. split; [now apply Forall_app|]. split; [lia|]. split; [hcode|].
    destruct HE as [(Hr & Hk & Hn & Ha & He & bp & Hbp & Hout)|[(Hr & Hk & Hn & Heq & Hwhy)|(Hr & Hk & Hn & Ha & He & bp & Hbp & Hout)]].
    + left. repeat split; try assumption.
      * intros i Hi. destruct (Nat.eq_dec i t) as [->|]; [assumption|]. destruct (Nat.eq_dec i (S t)) as [->|]; [assumption|]. apply Ha. lia.
      * exists kp, bp. repeat split; try assumption. destruct (N.leb_spec key_size (hmac_block_size a)); [lia|reflexivity].
    + right. left. repeat split; try assumption. right. destruct Hwhy as [H|(i & Hi & H)]; [now left|].
      right. exists i. split; [lia|assumption].
    + right. right. repeat split; try assumption.
      * destruct Ha as (i & Hi & H). exists i. split; [lia|assumption].
      * exists kp, bp. repeat split; assumption.
Qed.

Lemma hmac_st : forall E a key key_size buffer size hm hmac_size e old t er rs,
  Forall cell_ok old -> argl old key key_size -> argl old buffer size -> argl old hm hmac_size ->
  exists r old' news' khl t' ks fs,
  calculate_hmac E a key key_size buffer size hm hmac_size e (st old [] t er rs) =
  Done r (st old' (mk_cell false Stack (OBytes khl) :: news') t' (errs_add e er ks) (rs ++ fs)) /\
  length old' = length old /\ Forall (frame_clean a) fs /\ (t <= t')%nat /\
  hmac_end E a old key key_size buffer size hm hmac_size t t' r old' news' khl ks.
Proof.
  intros. destruct (hmac_st_code E a key key_size buffer size hm hmac_size e old t er rs) as
    (r & old' & news' & khl & t' & ks & fs & H3 & H4 & H5 & H6 & _ & H7); try assumption.
  exists r, old', news', khl, t', ks, fs. auto.
Qed.
