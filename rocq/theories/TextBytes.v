(* Words stored byte by byte in the C text: common/byte_stream.h:176-220, and the digest that
   libhmac_X_context_finalize writes. *)
From Coq Require Import Arith NArith ZArith List Lia Bool String.
From Verif Require Import Words Spec Machine Context Hash CText TextMd5 TextSha1 TextSha224 TextSha256 TextSha512.
From Verif Require Import Vocab MachineFacts ShaFacts TransformFacts ContextFacts DigestFacts TextFacts TextLoops.
Import ListNotations.
Open Scope string_scope.
Open Scope list_scope.
Open Scope N_scope.

(* ------------------------------------------------------------- lists of bytes *)

Lemma put_one : forall l o b, o < N.of_nat (List.length l) -> aset l (N.to_nat o) b = Some (put l o [b]).
Proof.
  intros l o b H. rewrite aset_ok by lia. unfold put. cbn [List.length]. rewrite Nat.add_1_r.
  assert (N.to_nat o < List.length l)%nat as L by lia. clear H. revert L. generalize (N.to_nat o) as n. revert l.
  induction l as [|x t IH]; intros [|n] L; cbn in *; try lia; [reflexivity|]. f_equal.
  specialize (IH n ltac:(lia)). injection IH as IH. now rewrite IH.
Qed.

Lemma put_below : forall l o b d, o + 1 + N.of_nat (List.length d) <= N.of_nat (List.length l) ->
  put (put l (o + 1) d) o [b] = put l o (b :: d).
Proof.
  intros l o b d H. unfold put. cbn [List.length].
  replace (N.to_nat (o + 1)) with (S (N.to_nat o)) by lia.
  assert (N.to_nat o + 1 + List.length d <= List.length l)%nat as L by lia. clear H. revert L.
  generalize (N.to_nat o) as n. revert l.
  induction l as [|x t IH]; intros [|n] L; cbn [List.length] in *; try lia; [reflexivity|].
  cbn. f_equal. specialize (IH n ltac:(lia)). cbn in IH. exact IH.
Qed.

Definition word_byte_at (x : N) (k : nat) : N := N.land (ushr x (8 * N.of_nat k)) 255.

Definition stored (o x : N) (order : list (nat * nat)) (v : list N) : list N :=
  fold_left (fun v jk => put v (o + N.of_nat (fst jk)) [word_byte_at x (snd jk)]) order v.

Definition up (n : nat) : list (nat * nat) := map (fun j => (j, (n - 1 - j)%nat)) (seq 0 n).
Definition down (n : nat) : list (nat * nat) := map (fun j => (j, j)) (rev (seq 0 n)).

Lemma stored_up : forall o x n k v, (k <= n)%nat -> o + N.of_nat n <= N.of_nat (List.length v) ->
  stored o x (map (fun j => (j, (n - 1 - j)%nat)) (seq 0 k)) v = put v o (map (fun j => word_byte_at x (n - 1 - j)) (seq 0 k)).
Proof.
  intros o x n k v Hk Hv. unfold stored. induction k as [|k IH]; [now rewrite put_nil by lia|].
  rewrite seq_S, !map_app, fold_left_app, IH by lia. cbn [map fold_left Nat.add fst snd].
  set (d := map _ (seq 0 k)). assert (Hd : List.length d = k) by (unfold d; rewrite map_length, seq_length; reflexivity).
  rewrite <- Hd at 1. apply put_put. rewrite Hd. cbn [List.length]. lia.
Qed.
Lemma stored_down : forall o x k j v, o + N.of_nat (j + k) <= N.of_nat (List.length v) ->
  stored o x (map (fun j => (j, j)) (rev (seq j k))) v = put v (o + N.of_nat j) (map (word_byte_at x) (seq j k)).
Proof.
  intros o x k. unfold stored. induction k as [|k IH]; intros j v Hv; [now rewrite put_nil by lia|].
  cbn [seq rev map]. rewrite map_app, fold_left_app, IH by lia. cbn [map fold_left fst snd].
  replace (o + N.of_nat (S j)) with (o + N.of_nat j + 1) by lia.
  apply put_below. rewrite map_length, seq_length. lia.
Qed.

Definition order_of (big : bool) (n : nat) : list (nat * nat) := if big then up n else down n.

Lemma rev_seq_map : forall B (f : nat -> B) n, rev (map f (seq 0 n)) = map (fun j => f (n - 1 - j)%nat) (seq 0 n).
Proof.
  intros B f n. induction n as [|n IH]; [reflexivity|].
  transitivity (f n :: rev (map f (seq 0 n))); [now rewrite seq_S, map_app, rev_app_distr|].
  rewrite IH. cbn [seq]. rewrite <- seq_shift. cbn [map]. rewrite map_map.
  f_equal; [f_equal; lia|]. apply map_ext. intros j. f_equal. lia.
Qed.

Lemma stored_word : forall big o x n v, o + N.of_nat n <= N.of_nat (List.length v) ->
  stored o x (order_of big n) v = put v o (copy_from_uint n big x).
Proof.
  intros [|] o x n v H; unfold order_of, copy_from_uint.
  - unfold up. rewrite stored_up by lia. rewrite rev_seq_map. reflexivity.
  - unfold down. rewrite stored_down by exact H. rewrite N.add_0_r. reflexivity.
Qed.

Lemma stored_length : forall o x order v, (forall jk, In jk order -> o + N.of_nat (fst jk) < N.of_nat (List.length v)) ->
  List.length (stored o x order v) = List.length v.
Proof.
  intros o x order. unfold stored. induction order as [|jk t IH]; intros v H; [reflexivity|].
  cbn [fold_left]. assert (L : List.length (put v (o + N.of_nat (fst jk)) [word_byte_at x (snd jk)]) = List.length v).
  { apply put_length. specialize (H jk (or_introl eq_refl)). cbn [List.length]. lia. }
  rewrite IH; [exact L|]. intros. rewrite L. apply H. now right.
Qed.

(* ------------------------------------------------------------- statements *)

Definition byte_text (value : expr) (k : nat) : expr :=
  ECast false R8 (EBin OAnd (match k with O => value | _ => EBin OShr value (EInt (8 * Z.of_nat k)) end) (EInt 255)).
Definition from_text (big : bool) (n : nat) (bs value : expr) : stmt :=
  each (fun jk => SAssign (EIndex bs (EInt (Z.of_nat (fst jk)))) (byte_text value (snd jk))) (order_of big n).

Section Stores.
  Variables (E : env) (P : program) (call : string -> list val -> M (val * list (option val))) (fuel : nat).
  Notation ev := (eval E P call).
  Variable A : Type.
  Notation dn := (@den E P call fuel A).

  Lemma bin_shr : forall r x kv k, rank_eqb r R8 = false -> amount kv = Some k -> k < bits E r ->
    binary E OShr (VU r x) kv = Some (VU r (ushr x k)).
  Proof.
    intros r x kv k R Hk Hb. destruct kv; try discriminate; cbn [binary]; unfold shift; rewrite Hk;
      (destruct r; try discriminate; cbn [promote]; rewrite (proj2 (N.ltb_lt _ _)) by exact Hb; reflexivity).
  Qed.

  Lemma ev_byte : forall value l s r x k, rank_eqb r R8 = false -> ev value l s = Done (VU r x, l) s ->
    8 * N.of_nat k < bits E r -> ev (byte_text value k) l s = Done (VU R8 (word_byte_at x k), l) s.
  Proof.
    intros value l s r x k R H L. unfold byte_text.
    assert (H0 : ev (match k with O => value | _ => EBin OShr value (EInt (8 * Z.of_nat k)) end) l s
                 = Done (VU r (ushr x (8 * N.of_nat k)), l) s).
    { destruct k as [|k].
      - change (ushr x (8 * N.of_nat 0)) with (N.shiftr x 0). rewrite N.shiftr_0_r. exact H.
      - eapply ev_bin; [exact H|reflexivity|]. apply bin_shr; [exact R| |exact L].
        cbn [amount]. rewrite (proj2 (Z.leb_le _ _)) by lia. f_equal. }
    eapply ev_cast; [eapply ev_bin; [exact H0|reflexivity|]|].
    - eapply bin_us; [exact R|destruct r; try discriminate; reflexivity|discriminate|discriminate|apply tu_int; [exact R|lia]|reflexivity].
    - apply conv_u. change (N.land (ushr x (8 * N.of_nat k)) (Z.to_N 255)) with (word_byte_at x k).
      assert (B : word_byte_at x k < 256).
      { unfold word_byte_at. change 255 with (N.ones 8). rewrite N.land_ones. apply N.mod_lt. discriminate. }
      destruct r; try discriminate; cbn [to_unsigned rank_eqb]; f_equal; apply N.mod_small; exact B.
  Qed.

  (* the place the bytes are stored at: the bytes from [o] on of the list that [st] has *)
  Definition place_for (bs : expr) (l : locals) (st : list N -> state) (len : nat) (o : N) (n : nat) : Prop :=
    forall v j b, List.length v = len -> (j < n)%nat ->
      assign E P call (EIndex bs (EInt (Z.of_nat j))) (VU R8 b) l (st v) = Done l (st (put v (o + N.of_nat j) [b])).

  Lemma store_each : forall bs value l st len o n r x order v (K : flow -> locals -> M A) R,
    rank_eqb r R8 = false ->
    (forall v, List.length v = len -> ev value l (st v) = Done (VU r x, l) (st v)) -> place_for bs l st len o n ->
    (forall jk, In jk order -> (fst jk < n)%nat /\ 8 * N.of_nat (snd jk) < bits E r) ->
    List.length v = len -> o + N.of_nat n <= N.of_nat len ->
    K FNext l (st (stored o x order v)) = R ->
    dn (each (fun jk => SAssign (EIndex bs (EInt (Z.of_nat (fst jk)))) (byte_text value (snd jk))) order) l K (st v) = R.
  Proof.
    intros bs value l st len o n r x order v K R Rk Hv Hp Ho Hlen Hbound HK.
    destruct (each_fold E P call fuel A unit (list N) (nat * nat)
      (fun jk => SAssign (EIndex bs (EInt (Z.of_nat (fst jk)))) (byte_text value (snd jk)))
      (fun v jk => if Nat.eqb (List.length v) len then Some (put v (o + N.of_nat (fst jk)) [word_byte_at x (snd jk)]) else None)
      (fun _ _ => l) st order v (stored o x order v) tt) as (u & Hu).
    - intros u y y' jk Hin Q. destruct (Nat.eqb_spec (List.length y) len) as [Hy|]; [|discriminate]. injection Q as <-.
      destruct (Ho jk Hin) as (Hj & Hk). exists tt. intros K1.
      eapply do_assign; [eapply ev_byte; [exact Rk|apply Hv; exact Hy|exact Hk]|apply Hp; [exact Hy|exact Hj]|reflexivity].
    - clear HK Hp Hv. revert v Hlen. unfold stored. induction order as [|jk t IH]; intros v Hlen; [reflexivity|].
      cbn [ofold fold_left]. rewrite (proj2 (Nat.eqb_eq _ _)) by exact Hlen. cbn [obind]. apply IH.
      + intros. apply Ho. now right.
      + destruct (Ho jk (or_introl eq_refl)). rewrite put_length by (cbn [List.length]; lia). exact Hlen.
    - rewrite Hu. exact HK.
  Qed.

  Lemma store_word : forall big bs value l st len o n r x v (K : flow -> locals -> M A) R,
    rank_eqb r R8 = false -> 8 * N.of_nat n <= bits E r ->
    (forall v, List.length v = len -> ev value l (st v) = Done (VU r x, l) (st v)) -> place_for bs l st len o n ->
    List.length v = len -> o + N.of_nat n <= N.of_nat len ->
    K FNext l (st (put v o (copy_from_uint n big x))) = R ->
    dn (from_text big n bs value) l K (st v) = R.
  Proof.
    intros big bs value l st len o n r x v K R Rk Hn Hv Hp Hlen Hb HK.
    eapply store_each; try eassumption.
    - intros jk Hin. destruct big; unfold order_of, up, down in Hin; apply in_map_iff in Hin; destruct Hin as (j & <- & Hj).
      + apply in_seq in Hj. cbn [fst snd]. lia.
      + apply in_rev, in_seq in Hj. cbn [fst snd]. lia.
    - rewrite stored_word by lia. exact HK.
  Qed.

  (* ----------------------------------------------------------- places *)

  Lemma place_block : forall bs l s a p c0 cnt h bo base len o n,
    get_obj s p = Some (OCtx a c0) -> o + N.of_nat n <= N.of_nat len -> base = VBlock a p o ->
    (forall v, List.length v = len -> ev bs l (set_obj p (OCtx a (mk_ctx cnt h bo v)) s) = Done (base, l) (set_obj p (OCtx a (mk_ctx cnt h bo v)) s)) ->
    place_for bs l (fun v => set_obj p (OCtx a (mk_ctx cnt h bo v)) s) len o n.
  Proof.
    intros bs l s a p c0 cnt h bo base len o n Hp Ho -> He v j b Hv Hj.
    eapply as_index; [apply He; exact Hv|reflexivity|apply amount_nat|reflexivity|].
    cbn [store_at]. rewrite tu_same. rewrite (bind_done _ _ _ _ _ _ _ (lift_some _ _ _)).
    erewrite bind_done by (apply load_ctx_ok; eapply get_set_same; eassumption). cbn [c_block c_count c_hash c_boff].
    rewrite put_one by lia. rewrite (bind_done _ _ _ _ _ _ _ (lift_some _ _ _)).
    erewrite bind_done by (eapply store_again; eassumption). reflexivity.
  Qed.

  Lemma place_bytes : forall bs l s q l0 len o n,
    get_obj s (fst q) = Some (OBytes l0) -> snd q + o + N.of_nat n <= N.of_nat len ->
    (forall v, List.length v = len -> ev bs l (set_obj (fst q) (OBytes v) s) = Done (VBytes (ptr_add q o), l) (set_obj (fst q) (OBytes v) s)) ->
    place_for bs l (fun v => set_obj (fst q) (OBytes v) s) len (snd q + o) n.
  Proof.
    intros bs l s q l0 len o n Hl Ho He v j b Hv Hj.
    eapply as_index; [apply He; exact Hv|reflexivity|apply amount_nat|reflexivity|].
    cbn [store_at]. rewrite tu_same. rewrite (bind_done _ _ _ _ _ _ _ (lift_some _ _ _)). unfold write_byte.
    erewrite bind_done.
    2: { eapply write_ok; [cbn [ptr_add fst]; eapply get_set_same; eassumption|cbn [ptr_add snd List.length]; lia]. }
    cbn [ptr_add fst snd]. rewrite set_set. reflexivity.
  Qed.

  (* ----------------------------------------------------------- the digest *)

  Definition hash_text (off : expr) (i : expr) (big : bool) (wb : nat) : stmt :=
    from_text big wb (EAddr (EIndex (EVar "hash") off)) (EIndex (EField (EVar "internal_context") "hash_values") i).

  Variables (a : algid) (p : nat) (hp : ptr) (s : state) (c : ctx) (l0 : list N) (y : layout).
  Hypotheses (Hp : get_obj s p = Some (OCtx a c)) (Hh : hash_ok a (c_hash c)) (Hl : get_obj s (fst hp) = Some (OBytes l0))
             (Ha : snd hp + a_hs (alg_of a) <= N.of_nat (List.length l0))
             (Hy : layout_of P a = Some y) (Hb : bits E (l_rank y) = 8 * N.of_nat (wbytes a)) (Hr : rank_eqb (l_rank y) R8 = false).

  Definition written (n : nat) : list N := List.concat (map (word_bytes a (wbytes a)) (firstn n (c_hash c))).
  Definition so_far (n : nat) : state := set_obj (fst hp) (OBytes (put l0 (snd hp) (written n))) s.

  Lemma written_length : forall n, (n <= a_outw (alg_of a))%nat -> List.length (written n) = (n * wbytes a)%nat.
  Proof.
    intros n Hn. unfold written. rewrite (concat_map_length _ _ _ (wbytes a)) by (intros; apply word_bytes_length).
    rewrite firstn_length, (proj1 Hh). f_equal. pose proof (outw_le a). lia.
  Qed.
  Lemma written_fits : forall n, (n <= a_outw (alg_of a))%nat -> snd hp + N.of_nat (List.length (written n)) <= N.of_nat (List.length l0).
  Proof. intros n Hn. rewrite written_length by exact Hn. pose proof (hs_eq a). nia. Qed.
  Lemma so_far_none : so_far 0 = s.
  Proof. unfold so_far, written. cbn [firstn map List.concat]. rewrite put_nil by lia. now apply set_id. Qed.
  Lemma so_far_all : so_far (a_outw (alg_of a)) = set_obj (fst hp) (OBytes (put l0 (snd hp) (digest_bytes a (c_hash c)))) s.
  Proof. reflexivity. Qed.
  Lemma written_next : forall n x, (n < a_outw (alg_of a))%nat -> nth_error (c_hash c) n = Some x ->
    put (put l0 (snd hp) (written n)) (snd hp + N.of_nat (n * wbytes a)) (word_bytes a (wbytes a) x) = put l0 (snd hp) (written (S n)).
  Proof.
    intros n x Hn Hx. rewrite <- (written_length n) by lia.
    rewrite put_put.
    - f_equal. unfold written. rewrite (firstn_snoc _ (c_hash c) n 0) by (apply nth_error_Some; congruence).
      rewrite map_app, concat_app. cbn [map List.concat]. rewrite app_nil_r. rewrite (nth_error_nth _ _ _ Hx). reflexivity.
    - rewrite word_bytes_length, written_length by lia. pose proof (hs_eq a). nia.
  Qed.

  Lemma store_one : forall l off i kv ov n (K : flow -> locals -> M A) R,
    (forall s', ev off l s' = Done (ov, l) s') -> amount ov = Some (N.of_nat (n * wbytes a)) ->
    (forall s', ev i l s' = Done (kv, l) s') -> amount kv = Some (N.of_nat n) ->
    lget l "hash" = Some (VBytes hp) -> lget l "internal_context" = Some (VCtx a p) -> (n < a_outw (alg_of a))%nat ->
    K FNext l (so_far (S n)) = R ->
    dn (hash_text off i (a_big (alg_of a)) (wbytes a)) l K (so_far n) = R.
  Proof.
    intros l off i kv ov n K R Ho Hov Hi Hkv H1 H2 Hn HK.
    assert (Hne : fst hp <> p) by congruence.
    destruct (nth_error (c_hash c) n) as [x|] eqn:Hx.
    2: { apply nth_error_None in Hx. destruct Hh as [Hl1 _]. pose proof (outw_le a). lia. }
    unfold hash_text, so_far.
    eapply (store_word _ _ _ _ (fun v => set_obj (fst hp) (OBytes v) s) (List.length l0) (snd hp + N.of_nat (n * wbytes a))); try exact Hr.
    - rewrite Hb. lia.
    - intros v Hv. eapply ev_index; [apply ev_hash; eapply ev_var; [exact H2|reflexivity]|apply Hi|exact Hkv|reflexivity|].
      cbn [load_at]. rewrite Hy. rewrite (bind_done _ _ _ _ _ _ _ (lift_some _ _ _)).
      erewrite bind_done by (apply load_ctx_ok; rewrite get_set_other by congruence; exact Hp).
      replace (N.to_nat (0 + N.of_nat n)) with n by lia. unfold aget. rewrite Hx. reflexivity.
    - eapply place_bytes; [exact Hl| |].
      + pose proof (hs_eq a). nia.
      + intros v Hv. eapply ev_addr; [eapply ev_var; [exact H1|reflexivity]|apply Ho|exact Hov|reflexivity].
    - rewrite put_length; [reflexivity|apply written_fits; lia].
    - pose proof (hs_eq a). nia.
    - cbv beta. rewrite copy_from_bytes, (written_next n x Hn Hx). exact HK.
  Qed.

  Lemma store_digest_each : forall l (K : flow -> locals -> M A) R,
    lget l "hash" = Some (VBytes hp) -> lget l "internal_context" = Some (VCtx a p) ->
    K FNext l (so_far (a_outw (alg_of a))) = R ->
    dn (each (fun i => hash_text (EInt (Z.of_nat (i * wbytes a))) (EInt (Z.of_nat i)) (a_big (alg_of a)) (wbytes a)) (seq 0 (a_outw (alg_of a)))) l K s = R.
  Proof.
    intros l K R H1 H2 HK.
    destruct (each_fold E P call fuel A unit nat nat
      (fun i => hash_text (EInt (Z.of_nat (i * wbytes a))) (EInt (Z.of_nat i)) (a_big (alg_of a)) (wbytes a))
      (fun n i => if Nat.eqb n i then Some (S n) else None) (fun _ _ => l) so_far (seq 0 (a_outw (alg_of a))) 0%nat (a_outw (alg_of a)) tt) as (u & Hu).
    - intros u n n' i Hin Q. destruct (Nat.eqb_spec n i) as [->|]; [|discriminate]. injection Q as <-. exists tt. intros K1.
      apply in_seq in Hin. eapply store_one; try eassumption; try (intros; reflexivity); try apply amount_nat; lia.
    - generalize (a_outw (alg_of a)) as k. intros k. change k with (0 + k)%nat at 2. generalize 0%nat as b. induction k as [|k IH]; intros b; cbn [seq ofold].
      + now rewrite Nat.add_0_r.
      + rewrite Nat.eqb_refl. cbn [obind]. rewrite IH. f_equal. lia.
    - rewrite so_far_none in Hu. rewrite Hu. exact HK.
  Qed.

  (* a counter of type int *)
  Lemma w_int_lt : forall x l s k n, lget l x = Some (VS R32 (Z.of_nat k)) ->
    ev (EBin OLt (EVar x) (EInt (Z.of_nat n))) l s = Done (truth (Nat.ltb k n), l) s.
  Proof.
    intros x l s' k n H. eapply ev_bin; [eapply ev_var; [eassumption|reflexivity]|reflexivity|].
    erewrite bin_int; [|reflexivity|reflexivity|discriminate|discriminate]. cbn [arith]. do 2 f_equal.
    destruct (Z.ltb_spec (Z.of_nat k) (Z.of_nat n)), (Nat.ltb_spec k n); try reflexivity; lia.
  Qed.
  Lemma do_int_inc : forall x l (K : flow -> locals -> M A) s k l' R, lget l x = Some (VS R32 (Z.of_nat k)) -> (k < 255)%nat ->
    lset l x (VS R32 (Z.of_nat (S k))) = Some l' -> K FNext l' s = R ->
    dn (SOp OAdd (EVar x) (EInt 1)) l K s = R.
  Proof.
    intros x l K s' k l' R H1 H2 H3 H4. eapply do_op.
    - eapply ev_var; [eassumption|reflexivity].
    - reflexivity.
    - erewrite bin_int; [|reflexivity|reflexivity|discriminate|discriminate]. cbn [arith].
      apply in_range_int. lia.
    - eapply as_s; [eassumption|apply ts_same|]. replace (Z.of_nat k + 1)%Z with (Z.of_nat (S k)) by lia. exact H3.
    - exact H4.
  Qed.

  Lemma store_digest_for : forall (Lc : nat -> nat -> locals) l (K : flow -> locals -> M A) R,
    (forall i j, lget (Lc i j) "hash" = Some (VBytes hp)) -> (forall i j, lget (Lc i j) "internal_context" = Some (VCtx a p)) ->
    (forall i j, lget (Lc i j) "hash_values_index" = Some (VS R32 (Z.of_nat i))) ->
    (forall i j, lget (Lc i j) "hash_index" = Some (VU RSz (N.of_nat j))) ->
    (forall i j i', lset (Lc i j) "hash_values_index" (VS R32 (Z.of_nat i')) = Some (Lc i' j)) ->
    (forall i j j', lset (Lc i j) "hash_index" (VU RSz (N.of_nat j')) = Some (Lc i j')) ->
    l = Lc 0%nat 0%nat -> (a_outw (alg_of a) <= fuel)%nat ->
    K FNext (Lc (a_outw (alg_of a)) (a_outw (alg_of a) * wbytes a)%nat) (so_far (a_outw (alg_of a))) = R ->
    dn (SFor (SAssign (EVar "hash_values_index") (EInt 0)) (EBin OLt (EVar "hash_values_index") (EInt (Z.of_nat (a_outw (alg_of a)))))
             (SOp OAdd (EVar "hash_values_index") (EInt 1))
             (SSeq (hash_text (EVar "hash_index") (EVar "hash_values_index") (a_big (alg_of a)) (wbytes a))
                   (SOp OAdd (EVar "hash_index") (ESize (N.of_nat (wbytes a)))))) l K s = R.
  Proof.
    intros Lc l K R H1 H2 H3 H4 H5 H6 -> Hf HK. rewrite den_for.
    eapply do_assign; [reflexivity|eapply as_s; [apply H3|apply ts_same|apply (H5 0%nat 0%nat 0%nat)]|].
    destruct (for_fold E P call fuel A unit nat (fun n i => n = i)
      (fun n i => if Nat.eqb n i then Some (S n) else None) (fun _ n i => Lc i (n * wbytes a)%nat) so_far
      (EBin OLt (EVar "hash_values_index") (EInt (Z.of_nat (a_outw (alg_of a)))))
      (SSeq (hash_text (EVar "hash_index") (EVar "hash_values_index") (a_big (alg_of a)) (wbytes a))
                   (SOp OAdd (EVar "hash_index") (ESize (N.of_nat (wbytes a)))))
      (SOp OAdd (EVar "hash_values_index") (EInt 1)) (a_outw (alg_of a)) 0 fuel 0%nat (a_outw (alg_of a)) tt) as (u & Hu).
    - intros u n i. apply w_int_lt. apply H3.
    - reflexivity.
    - intros u n n' i Hi -> Q. rewrite Nat.eqb_refl in Q. injection Q as <-. split; [reflexivity|]. exists tt. intros K1.
      rewrite !den_seq.
      assert (Ho : (a_outw (alg_of a) <= 16)%nat) by (clear; destruct a; vm_compute; lia).
      assert (Hw : (wbytes a <= 8)%nat) by (clear; destruct a; vm_compute; lia).
      eapply store_one; [intros; eapply ev_var; [apply H4|reflexivity]|reflexivity|intros; eapply ev_var; [apply H3|reflexivity]|apply amount_nat|apply H1|apply H2|lia|].
      eapply do_op; [eapply ev_var; [apply H4|reflexivity]|reflexivity| | |].
      + apply bin_uu; [reflexivity|discriminate|discriminate|reflexivity].
      + eapply as_u; [apply H4|apply tu_same|].
        replace (uadd (bits E RSz) (N.of_nat (i * wbytes a)) (N.of_nat (wbytes a))) with (N.of_nat (S i * wbytes a)).
        * apply H6.
        * unfold uadd. rewrite N.mod_small; [lia|].
          pose proof (N.pow_le_mono_r 2 _ _ ltac:(discriminate) (bits_ge E)). change (2 ^ 32) with 4294967296 in *. nia.
      + eapply do_int_inc; [apply H3|lia|apply H5|]. reflexivity.
    - generalize (a_outw (alg_of a)) as k. intros k. change k with (0 + k)%nat at 2. generalize 0%nat as b. induction k as [|k IH]; intros b; cbn [seq ofold].
      + now rewrite Nat.add_0_r.
      + rewrite Nat.eqb_refl. cbn [obind]. rewrite IH. f_equal. lia.
    - exact Hf.
    - rewrite so_far_none in Hu. cbv beta iota. cbn [Nat.mul] in Hu. rewrite Hu. exact HK.
  Qed.
End Stores.
