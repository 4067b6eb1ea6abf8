(* Loops, arrays of words and buffers in the C text. *)
From Coq Require Import Arith NArith ZArith List Lia Bool String.
From Verif Require Import Words Machine Transform Context Hash CText.
From Verif Require Import Spec Vocab MachineFacts TextFacts.
Import ListNotations.
Open Scope string_scope.
Open Scope list_scope.
Open Scope N_scope.

(* ------------------------------------------------------------- loops *)

Section Loops.
  Variables (E : env) (P : program) (call : string -> list val -> M (val * list (option val))) (fuel : nat).
  Variable A : Type.
  Notation ev := (eval E P call).
  Notation dn := (@den E P call fuel A).

  Definition dloop (n : nat) (c : expr) (b : stmt) (l : locals) (K : flow -> locals -> M A) : M A :=
    fun s => match loop n (ev c) (exec E P call fuel b) l s with Done r s' => K (fst r) (snd r) s' | Undef => Undef end.

  Lemma den_while : forall c b l K s, dn (SWhile c b) l K s = dloop fuel c b l K s.
  Proof. reflexivity. Qed.

  Lemma den_for : forall i c n b l K s,
    dn (SFor i c n b) l K s = dn i l (fun _ l' => dloop fuel c (SSeq b n) l' K) s.
  Proof.
    intros. unfold den, dloop. cbn [exec]. unfold bind at 1.
    destruct (exec E P call fuel i l s) as [[f l'] s'|]; reflexivity.
  Qed.

  Lemma dloop_end : forall n c b l K s,
    ev c l s = Done (truth false, l) s -> dloop n c b l K s = K FNext l s.
  Proof.
    intros n c b l K s H. unfold dloop. destruct n; cbn [loop]; unfold bind; rewrite H; reflexivity.
  Qed.
  Lemma dloop_step : forall n c b l K s,
    ev c l s = Done (truth true, l) s ->
    dloop (S n) c b l K s = dn b l (fun f l' => match f with FNext => dloop n c b l' K | FBreak => K FNext l' | _ => K f l' end) s.
  Proof.
    intros n c b l K s H. unfold dloop, den. cbn [loop]. unfold bind. rewrite H. cbn [fst snd]. rewrite test_truth.
    cbn [lift]. unfold ret at 1. cbv iota.
    destruct (exec E P call fuel b l s) as [[f l'] s'|]; [|reflexivity]. cbn [fst snd].
    destruct f; reflexivity.
  Qed.

  (* a loop over a counter that does what folding [step] does; X is what the loop leaves in
     variables that do not matter afterwards *)
  Lemma for_fold : forall X B (Inv : B -> nat -> Prop) (step : B -> nat -> option B) (L : X -> B -> nat -> locals) (st : B -> state) c body next k start n x x' u,
    (forall u y i, ev c (L u y i) (st y) = Done (truth (Nat.ltb i (start + k)), L u y i) (st y)) ->
    Inv x start ->
    (forall u y y' i, (start <= i < start + k)%nat -> Inv y i -> step y i = Some y' -> Inv y' (S i) /\
       exists u', forall K, dn (SSeq body next) (L u y i) K (st y) = K FNext (L u' y' (S i)) (st y')) ->
    ofold step (seq start k) x = Some x' -> (k <= n)%nat ->
    exists u', forall K, dloop n c (SSeq body next) (L u x start) K (st x) = K FNext (L u' x' (start + k)%nat) (st x').
  Proof.
    intros X B Inv step L st c body next k. induction k as [|k IH]; intros start n x x' u Hc Hi Hb Hf Hn.
    - cbn in Hf. injection Hf as <-. rewrite Nat.add_0_r in *. exists u. intros K.
      apply dloop_end. rewrite Hc, Nat.ltb_irrefl. reflexivity.
    - cbn [seq ofold] in Hf. destruct (step x start) as [y|] eqn:Hs; [|discriminate]. cbn [obind] in Hf.
      destruct n as [|n]; [lia|].
      destruct (Hb u x y start ltac:(lia) Hi Hs) as (Hi' & u1 & H1).
      destruct (IH (S start) n y x' u1) as (u2 & H2); try assumption; try lia.
      + intros. replace (S start + k)%nat with (start + S k)%nat by lia. apply Hc.
      + intros. apply Hb; [lia|assumption|assumption].
      + exists u2. intros K. rewrite dloop_step by (rewrite Hc; rewrite (proj2 (Nat.ltb_lt _ _)) by lia; reflexivity).
        rewrite H1, H2. replace (S start + k)%nat with (start + S k)%nat by lia. reflexivity.
  Qed.

  (* one statement for each element of a list *)
  Fixpoint each {B} (f : B -> stmt) (l : list B) : stmt :=
    match l with
    | [] => SSkip
    | [x] => f x
    | x :: t => SSeq (f x) (each f t)
    end.

  Lemma each_fold : forall X B C (mac : C -> stmt) (step : B -> C -> option B) (L : X -> B -> locals) (st : B -> state) l x x' u,
    (forall u y y' i, In i l -> step y i = Some y' ->
       exists u', forall K, dn (mac i) (L u y) K (st y) = K FNext (L u' y') (st y')) ->
    ofold step l x = Some x' ->
    exists u', forall K, dn (each mac l) (L u x) K (st x) = K FNext (L u' x') (st x').
  Proof.
    intros X B C mac step L st l. induction l as [|i t IH]; intros x x' u Hb Hf.
    - cbn in Hf. injection Hf as <-. exists u. reflexivity.
    - cbn [ofold] in Hf. destruct (step x i) as [y|] eqn:Hs; [|discriminate]. cbn [obind] in Hf.
      destruct (Hb u x y i (or_introl eq_refl) Hs) as (u1 & H1).
      destruct t as [|j t].
      + cbn in Hf. injection Hf as <-. exists u1. exact H1.
      + destruct (IH y x' u1) as (u2 & H2); [intros; apply Hb; [now right|assumption]|assumption|].
        exists u2. intros K. change (each mac (i :: j :: t)) with (SSeq (mac i) (each mac (j :: t))).
        rewrite den_seq, H1. apply H2.
  Qed.
End Loops.
Arguments dloop {E P call fuel A}.
Arguments each {B}.

(* ------------------------------------------------------------- words *)

Lemma amount_nat : forall r k, amount (VS r (Z.of_nat k)) = Some (N.of_nat k).
Proof.
  intros. cbn [amount]. destruct (Z.leb_spec 0 (Z.of_nat k)); [|lia]. f_equal. lia.
Qed.
Lemma amount_u : forall r k, amount (VU r (N.of_nat k)) = Some (N.of_nat k).
Proof. reflexivity. Qed.

Section WordOps.
  Variables (E : env) (P : program) (call : string -> list val -> M (val * list (option val))) (fuel : nat).
  Notation ev := (eval E P call).

  Lemma w_get : forall x i l s r ws f kv k y,
    lget l x = Some (VArr r ws f) -> ev i l s = Done (kv, l) s -> amount kv = Some (N.of_nat k) -> aget ws k = Some y ->
    ev (EIndex (EVar x) i) l s = Done (VU r y, l) s.
  Proof.
    intros x i l s r ws f kv k y H1 H2 H3 H4. eapply ev_index.
    - eapply ev_arr. eassumption.
    - eassumption.
    - eassumption.
    - reflexivity.
    - cbn [load_at]. rewrite H1, N.add_0_l, Nat2N.id, H4. reflexivity.
  Qed.
  Lemma w_tab : forall x i l s r ws kv k y,
    lget l x = None -> find_assoc (p_tables P) x = Some (r, ws) -> ev i l s = Done (kv, l) s -> amount kv = Some (N.of_nat k) ->
    aget ws k = Some y -> ev (EIndex (EVar x) i) l s = Done (VU r y, l) s.
  Proof.
    intros x i l s r ws kv k y H0 H1 H2 H3 H4. eapply ev_index.
    - eapply ev_tab; eassumption.
    - eassumption.
    - eassumption.
    - reflexivity.
    - cbn [load_at]. rewrite H1, N.add_0_l, Nat2N.id, H4. reflexivity.
  Qed.

  Lemma w_logic : forall o a b l s r x y, rank_eqb r R8 = false ->
    ev a l s = Done (VU r x, l) s -> ev b l s = Done (VU r y, l) s ->
    ev (EBin o a b) l s =
    match o with
    | OAnd => Done (VU r (N.land x y), l) s
    | OOr => Done (VU r (N.lor x y), l) s
    | OXor => Done (VU r (N.lxor x y), l) s
    | OAdd => Done (VU r (uadd (bits E r) x y), l) s
    | _ => ev (EBin o a b) l s
    end.
  Proof.
    intros o a b l s r x y R H1 H2. destruct o; try reflexivity; (eapply ev_bin; [eassumption|eassumption|]);
      (apply bin_uu; [assumption|discriminate|discriminate|reflexivity]).
  Qed.
  Lemma w_and : forall a b l s r x y, rank_eqb r R8 = false ->
    ev a l s = Done (VU r x, l) s -> ev b l s = Done (VU r y, l) s ->
    ev (EBin OAnd a b) l s = Done (VU r (N.land x y), l) s.
  Proof. intros. erewrite w_logic by eassumption. reflexivity. Qed.
  Lemma w_or : forall a b l s r x y, rank_eqb r R8 = false ->
    ev a l s = Done (VU r x, l) s -> ev b l s = Done (VU r y, l) s ->
    ev (EBin OOr a b) l s = Done (VU r (N.lor x y), l) s.
  Proof. intros. erewrite w_logic by eassumption. reflexivity. Qed.
  Lemma w_xor : forall a b l s r x y, rank_eqb r R8 = false ->
    ev a l s = Done (VU r x, l) s -> ev b l s = Done (VU r y, l) s ->
    ev (EBin OXor a b) l s = Done (VU r (N.lxor x y), l) s.
  Proof. intros. erewrite w_logic by eassumption. reflexivity. Qed.
  Lemma w_add : forall a b l s r w x y, rank_eqb r R8 = false -> bits E r = w ->
    ev a l s = Done (VU r x, l) s -> ev b l s = Done (VU r y, l) s ->
    ev (EBin OAdd a b) l s = Done (VU r (uadd w x y), l) s.
  Proof. intros. subst w. erewrite w_logic by eassumption. reflexivity. Qed.
  Lemma w_not : forall a l s r w x, rank_eqb r R8 = false -> bits E r = w -> ev a l s = Done (VU r x, l) s ->
    ev (ENot a) l s = Done (VU r (unot w x), l) s.
  Proof. intros. subst w. now apply ev_not. Qed.
  Lemma bin_shl : forall r x kv k, rank_eqb r R8 = false -> amount kv = Some k -> k < bits E r ->
    binary E OShl (VU r x) kv = Some (VU r (ushl (bits E r) x k)).
  Proof.
    intros r x kv k R H3 H4. assert (promote (VU r x) = VU r x) by (destruct r; try discriminate; reflexivity).
    destruct kv; try discriminate; cbn [binary]; unfold shift; rewrite H, H3, (proj2 (N.ltb_lt _ _) H4); reflexivity.
  Qed.
  Lemma w_shl : forall a b l s r w x kv k, rank_eqb r R8 = false -> bits E r = w ->
    ev a l s = Done (VU r x, l) s -> ev b l s = Done (kv, l) s -> amount kv = Some k -> k < w ->
    ev (EBin OShl a b) l s = Done (VU r (ushl w x k), l) s.
  Proof.
    intros a b l s r w x kv k R W H1 H2 H3 H4. subst w. eapply ev_bin; [eassumption|eassumption|].
    now apply bin_shl.
  Qed.
  Lemma w_shr : forall a b l s r w x kv k, rank_eqb r R8 = false -> bits E r = w ->
    ev a l s = Done (VU r x, l) s -> ev b l s = Done (kv, l) s -> amount kv = Some k -> k < w ->
    ev (EBin OShr a b) l s = Done (VU r (ushr x k), l) s.
  Proof.
    intros a b l s r w x kv k R W H1 H2 H3 H4. subst w. eapply ev_bin; [eassumption|eassumption|].
    assert (promote (VU r x) = VU r x) by (destruct r; try discriminate; reflexivity).
    destruct kv; try discriminate; cbn [binary]; unfold shift; rewrite H, H3, (proj2 (N.ltb_lt _ _) H4); reflexivity.
  Qed.

  (* a counter below 256 *)
  Lemma promote_counter : forall k, promote (VU R8 (N.of_nat k)) = VS R32 (Z.of_nat k).
  Proof. intros. cbn [promote]. now rewrite nat_N_Z. Qed.

  Lemma bin_int : forall o a b z y, promote a = VS R32 z -> promote b = VS R32 y -> o <> OShl -> o <> OShr ->
    binary E o a b = arith E o (PS R32 z y).
  Proof.
    intros o a b z y Ha Hb H1 H2.
    assert (U : usual E a b = Some (PS R32 z y)) by (unfold usual; rewrite Ha, Hb; reflexivity).
    unfold binary. rewrite U. destruct b; try discriminate; destruct o; congruence.
  Qed.
  Lemma in_range_int : forall z, (- 2 ^ 31 <= z < 2 ^ 31)%Z -> in_range E R32 z = Some (VS R32 z).
  Proof.
    intros z H. unfold in_range. change (Z.of_N (bits E R32 - 1)) with 31%Z.
    destruct (Z.leb_spec (- 2 ^ 31) z); [|lia]. destruct (Z.ltb_spec z (2 ^ 31)); [reflexivity|lia].
  Qed.

  Lemma w_index_sub : forall a b l s kv k j, ev a l s = Done (kv, l) s -> promote kv = VS R32 (Z.of_nat k) ->
    ev b l s = Done (VS R32 (Z.of_nat j), l) s -> (j <= k < 256)%nat ->
    ev (EBin OSub a b) l s = Done (VS R32 (Z.of_nat (k - j)), l) s.
  Proof.
    intros a b l s kv k j H1 H2 H3 H4. eapply ev_bin; [eassumption|eassumption|].
    erewrite bin_int; [|eassumption|reflexivity|discriminate|discriminate]. cbn [arith].
    rewrite in_range_int by lia. do 2 f_equal. lia.
  Qed.
  Lemma w_counter_lt : forall x l s k n, lget l x = Some (VU R8 (N.of_nat k)) ->
    ev (EBin OLt (EVar x) (EInt (Z.of_nat n))) l s = Done (truth (Nat.ltb k n), l) s.
  Proof.
    intros x l s k n H. eapply ev_bin; [eapply ev_var; [eassumption|reflexivity]|reflexivity|].
    erewrite bin_int; [|apply promote_counter|reflexivity|discriminate|discriminate]. cbn [arith]. do 2 f_equal.
    destruct (Z.ltb_spec (Z.of_nat k) (Z.of_nat n)), (Nat.ltb_spec k n); try reflexivity; lia.
  Qed.

  Variable A : Type.
  Notation dn := (@den E P call fuel A).

  Lemma do_inc : forall x l (K : flow -> locals -> M A) s k l' R, lget l x = Some (VU R8 (N.of_nat k)) -> (k < 255)%nat ->
    lset l x (VU R8 (N.of_nat (S k))) = Some l' -> K FNext l' s = R ->
    dn (SOp OAdd (EVar x) (EInt 1)) l K s = R.
  Proof.
    intros x l K s k l' R H1 H2 H3 H4. eapply do_op.
    - eapply ev_var; [eassumption|reflexivity].
    - reflexivity.
    - erewrite bin_int; [|apply promote_counter|reflexivity|discriminate|discriminate]. cbn [arith].
      apply in_range_int. lia.
    - eapply as_u; [eassumption| |exact H3]. cbn [to_unsigned]. f_equal.
      rewrite Z.mod_small by (cbn; lia). lia.
    - exact H4.
  Qed.

  (* array element := value of the same type *)
  Lemma st_loc : forall l x k r ws f v ws' l' s,
    lget l x = Some (VArr r ws f) -> aset ws k v = Some ws' -> lset l x (VArr r ws' true) = Some l' ->
    store_at E P l (VLoc x (0 + N.of_nat k)) (VU r v) s = Done l' s.
  Proof.
    intros l x k r ws f v ws' l' s H1 H2 H3. cbn [store_at]. rewrite H1. unfold bind.
    rewrite tu_same. cbn [lift]. unfold ret at 1. rewrite N.add_0_l, Nat2N.id, H2. cbn [lift]. unfold ret at 1.
    rewrite H3. reflexivity.
  Qed.
  Lemma do_set : forall x i e l (K : flow -> locals -> M A) s r ws f kv k v ws' l' R,
    ev e l s = Done (VU r v, l) s -> lget l x = Some (VArr r ws f) -> ev i l s = Done (kv, l) s ->
    amount kv = Some (N.of_nat k) -> aset ws k v = Some ws' -> lset l x (VArr r ws' true) = Some l' ->
    K FNext l' s = R -> dn (SAssign (EIndex (EVar x) i) e) l K s = R.
  Proof.
    intros. eapply do_assign; [eassumption| |eassumption].
    eapply as_index; [eapply ev_arr; eassumption|eassumption|eassumption|reflexivity|].
    eapply st_loc; eassumption.
  Qed.
  Lemma do_add : forall x i e l (K : flow -> locals -> M A) s r w ws f kv k y v ws' l' R,
    rank_eqb r R8 = false -> bits E r = w ->
    lget l x = Some (VArr r ws f) -> ev i l s = Done (kv, l) s -> amount kv = Some (N.of_nat k) -> aget ws k = Some y ->
    ev e l s = Done (VU r v, l) s -> aset ws k (uadd w y v) = Some ws' -> lset l x (VArr r ws' true) = Some l' ->
    K FNext l' s = R -> dn (SOp OAdd (EIndex (EVar x) i) e) l K s = R.
  Proof.
    intros x i e l K s r w ws f kv k y v ws' l' R Hr Hw H1 H2 H3 H4 H5 H6 H7 H8. subst w. eapply do_op.
    - eapply w_get; eassumption.
    - eassumption.
    - apply bin_uu; [assumption|discriminate|discriminate|reflexivity].
    - eapply as_index; [eapply ev_arr; eassumption|eassumption|eassumption|reflexivity|]. eapply st_loc; eassumption.
    - assumption.
  Qed.
  (* array element of 32 bits += a constant of type unsigned long *)
  Lemma do_add_long : forall x i n l (K : flow -> locals -> M A) s ws f kv k y ws' l' R,
    lget l x = Some (VArr R32 ws f) -> ev i l s = Done (kv, l) s -> amount kv = Some (N.of_nat k) -> aget ws k = Some y ->
    aset ws k (uadd 32 y n) = Some ws' -> lset l x (VArr R32 ws' true) = Some l' ->
    K FNext l' s = R -> dn (SOp OAdd (EIndex (EVar x) i) (ELong n)) l K s = R.
  Proof.
    intros x i n l K s ws f kv k y ws' l' R H1 H2 H3 H4 H6 H7 H8. eapply do_op.
    - eapply w_get; eassumption.
    - reflexivity.
    - reflexivity.
    - eapply as_index; [eapply ev_arr; eassumption|eassumption|eassumption|reflexivity|].
      cbn [store_at]. rewrite H1. unfold bind.
      assert (to_unsigned E R32 (VU RSz (uadd (bits E RSz) y n)) = Some (uadd 32 y n)).
      { cbn [to_unsigned rank_eqb]. f_equal. unfold uadd. change (bits E R32) with 32.
        assert (exists d, bits E RSz = 32 + d) as (d & ->) by (pose proof (bits_ge E); exists (bits E RSz - 32); lia).
        rewrite N.pow_add_r, N.mod_mul_r by (apply N.pow_nonzero; lia).
        rewrite (N.mul_comm (2 ^ 32)), N.mod_add by (cbn; lia). apply N.mod_mod. cbn; lia. }
      cbn [rank_max]. rewrite H. cbn [lift]. unfold ret at 1. rewrite N.add_0_l, Nat2N.id, H6. cbn [lift]. unfold ret at 1.
      rewrite H7. reflexivity.
    - assumption.
  Qed.
  (* a scalar word *)
  Lemma do_word : forall x e l (K : flow -> locals -> M A) s r v0 v l' R,
    lget l x = Some (VU r v0) -> ev e l s = Done (VU r v, l) s -> lset l x (VU r v) = Some l' ->
    K FNext l' s = R -> dn (SAssign (EVar x) e) l K s = R.
  Proof.
    intros. eapply do_assign; [eassumption| |eassumption]. eapply as_u; [eassumption|apply tu_same|assumption].
  Qed.
  Lemma do_word_add : forall x e l (K : flow -> locals -> M A) s r w v0 v l' R,
    rank_eqb r R8 = false -> bits E r = w ->
    lget l x = Some (VU r v0) -> ev e l s = Done (VU r v, l) s -> lset l x (VU r (uadd w v0 v)) = Some l' ->
    K FNext l' s = R -> dn (SOp OAdd (EVar x) e) l K s = R.
  Proof.
    intros x e l K s r w v0 v l' R Hr Hw H1 H2 H3 H4. subst w. eapply do_op.
    - eapply ev_var; [eassumption|reflexivity].
    - eassumption.
    - apply bin_uu; [assumption|discriminate|discriminate|reflexivity].
    - eapply as_u; [eassumption|apply tu_same|eassumption].
    - assumption.
  Qed.
  (* a word of the chaining value += a word *)
  Lemma do_ctx_add : forall i e l (K : flow -> locals -> M A) s a p y r w c kv k h v hs R s',
    layout_of P a = Some y -> l_rank y = r -> rank_eqb r R8 = false -> bits E r = w ->
    lget l "internal_context" = Some (VCtx a p) -> load_ctx a p s = Done c s ->
    ev i l s = Done (kv, l) s -> amount kv = Some (N.of_nat k) -> aget (c_hash c) k = Some h ->
    ev e l s = Done (VU r v, l) s -> aset (c_hash c) k (uadd w h v) = Some hs ->
    store_ctx a p (mk_ctx (c_count c) hs (c_boff c) (c_block c)) s = Done tt s' ->
    K FNext l s' = R -> dn (SOp OAdd (EIndex (EField (EVar "internal_context") "hash_values") i) e) l K s = R.
  Proof.
    intros i e l K s a p y r w c kv k h v hs R s' Hy Hr Hr8 Hw Hl Hc Hi Hk Hh He Hs Hst HK. subst w.
    eapply do_op.
    - eapply ev_index; [eapply ev_hash, ev_var; [eassumption|reflexivity]|eassumption|eassumption|reflexivity|].
      cbn [load_at]. unfold bind. rewrite Hy. cbn [lift]. unfold ret at 1. rewrite Hc. rewrite N.add_0_l, Nat2N.id, Hh. reflexivity.
    - eassumption.
    - rewrite Hr. apply bin_uu; [assumption|discriminate|discriminate|reflexivity].
    - eapply as_index; [eapply ev_hash, ev_var; [eassumption|reflexivity]|eassumption|eassumption|reflexivity|].
      cbn [store_at]. unfold bind. rewrite Hy. cbn [lift]. unfold ret at 1. rewrite Hr, tu_same. cbn [lift]. unfold ret at 1.
      rewrite Hc, N.add_0_l, Nat2N.id, Hs. cbn [lift]. unfold ret at 1. rewrite Hst. reflexivity.
    - assumption.
  Qed.
End WordOps.

(* ------------------------------------------------------------- bytes into words *)

(* value = b; value <<= 8; value |= b'; ... *)
Fixpoint or_text (value : expr) (bs : list expr) : stmt :=
  match bs with
  | [] => SSkip
  | [b] => SOp OShl value (EInt 8) ;- SOp OOr value b
  | b :: t => SOp OShl value (EInt 8) ;- (SOp OOr value b ;- or_text value t)
  end.
Definition copy_text (value : expr) (bs : list expr) : stmt :=
  match bs with
  | [] => SSkip
  | b :: t => SAssign value b ;- or_text value t
  end.

Definition word_of (w : N) (b : N) (bs : list N) : N := fold_left (fun v b => N.lor (ushl w v 8) b) bs b.

Lemma copy_to_bytes : forall w order buf off v, copy_to_uint w order buf off = Some v ->
  exists b bs, Forall2 (fun k b => bget buf (off + k) = Some b) order (b :: bs) /\ v = word_of w b bs.
Proof.
  intros w order buf off v H. destruct order as [|k rest]; [discriminate|]. cbn [copy_to_uint] in H.
  destruct (bget buf (off + k)) as [b|] eqn:Hb; [|discriminate]. cbn [obind] in H.
  enough (forall rest b, ofold (fun v k => b <-? bget buf (off + k); Some (N.lor (ushl w v 8) b)) rest b = Some v ->
          exists bs, Forall2 (fun k b => bget buf (off + k) = Some b) rest bs /\ v = word_of w b bs) as Q.
  { destruct (Q _ _ H) as (bs & Hf & Hv). exists b, bs. split; [now constructor|exact Hv]. }
  clear. induction rest as [|k t IH]; intros b H.
  - cbn in H. injection H as <-. exists []. split; [constructor|reflexivity].
  - cbn [ofold] in H. destruct (bget buf (off + k)) as [b'|] eqn:Hb; [|discriminate]. cbn [obind] in H.
    destruct (IH _ H) as (bs & Hf & Hv). exists (b' :: bs). split; [now constructor|exact Hv].
Qed.

Lemma aset_replace : forall A (l : list A) i v l', aset l i v = Some l' -> (i < List.length l)%nat /\ l' = replace l i v.
Proof.
  intros A l. induction l as [|x t IH]; intros i v l' H; [destruct i; discriminate|]. destruct i as [|i]; cbn in H.
  - injection H as <-. cbn. split; [lia|reflexivity].
  - destruct (aset t i v) as [t'|] eqn:Ht; [|discriminate]. injection H as <-.
    destruct (IH _ _ _ Ht) as (H1 & ->). cbn. split; [lia|reflexivity].
Qed.
Lemma aset_ok : forall A (l : list A) i v, (i < List.length l)%nat -> aset l i v = Some (replace l i v).
Proof.
  intros A l. induction l as [|x t IH]; intros i v H; [cbn in H; lia|]. destruct i as [|i]; cbn; [reflexivity|].
  rewrite IH; [reflexivity|cbn in H; lia].
Qed.

Section Copy.
  Variables (E : env) (P : program) (call : string -> list val -> M (val * list (option val))) (fuel : nat).
  Notation ev := (eval E P call).
  Variable A : Type.
  Notation dn := (@den E P call fuel A).
  Variables (x : string) (ie : expr) (r : rank) (w : N) (L : list N -> locals) (s : state) (kv : val) (k : nat).
  Hypothesis Hr : rank_eqb r R8 = false.
  Hypothesis Hw : bits E r = w.
  Hypothesis Hw32 : 32 <= w.
  Hypothesis Hget : forall ws, lget (L ws) x = Some (VArr r ws true).
  Hypothesis Hset : forall ws ws', lset (L ws) x (VArr r ws' true) = Some (L ws').
  Hypothesis Hie : forall ws, ev ie (L ws) s = Done (kv, L ws) s.
  Hypothesis Hkv : amount kv = Some (N.of_nat k).

  Notation byte e b := (b < 256 /\ forall ws, ev e (L ws) s = Done (VU R8 b, L ws) s).

  Lemma or_ok : forall es bs, Forall2 (fun e b => byte e b) es bs -> forall ws u (K : flow -> locals -> M A), (k < List.length ws)%nat ->
    dn (or_text (EIndex (EVar x) ie) es) (L (replace ws k u)) K s = K FNext (L (replace ws k (word_of w u bs))) s.
  Proof.
    assert (One : forall ws u (K : flow -> locals -> M A) R, (k < List.length ws)%nat ->
      K FNext (L (replace ws k (ushl w u 8))) s = R -> dn (SOp OShl (EIndex (EVar x) ie) (EInt 8)) (L (replace ws k u)) K s = R).
    { intros ws u K R H HK. eapply do_op.
      - eapply w_get; [apply Hget|apply Hie|exact Hkv|]. now apply replace_same.
      - reflexivity.
      - apply bin_shl with (k := 8); [exact Hr|reflexivity|lia].
      - eapply as_index; [eapply ev_arr; apply Hget|apply Hie|exact Hkv|reflexivity|].
        eapply st_loc; [apply Hget|apply aset_ok; now rewrite replace_length|apply Hset].
      - rewrite replace_replace. rewrite <- HK, <- Hw. reflexivity. }
    assert (Two : forall ws u e b (K : flow -> locals -> M A) R, (k < List.length ws)%nat -> byte e b ->
      K FNext (L (replace ws k (N.lor u b))) s = R -> dn (SOp OOr (EIndex (EVar x) ie) e) (L (replace ws k u)) K s = R).
    { intros ws u e b K R H (Hb & He) HK. eapply do_op.
      - eapply w_get; [apply Hget|apply Hie|exact Hkv|]. now apply replace_same.
      - apply He.
      - eapply bin_u8; [exact Hr|discriminate|discriminate|apply tu_int; [exact Hr|lia]|]. rewrite N2Z.id. reflexivity.
      - eapply as_index; [eapply ev_arr; apply Hget|apply Hie|exact Hkv|reflexivity|].
        eapply st_loc; [apply Hget|apply aset_ok; now rewrite replace_length|apply Hset].
      - rewrite replace_replace. exact HK. }
    intros es bs F. induction F as [|e b es bs He F IH]; intros ws u K H.
    - reflexivity.
    - assert (or_text (EIndex (EVar x) ie) (e :: es) = match es with
        | [] => SOp OShl (EIndex (EVar x) ie) (EInt 8) ;- SOp OOr (EIndex (EVar x) ie) e
        | _ => SOp OShl (EIndex (EVar x) ie) (EInt 8) ;- (SOp OOr (EIndex (EVar x) ie) e ;- or_text (EIndex (EVar x) ie) es) end)
        as -> by (destruct es; reflexivity).
      destruct es as [|e' es].
      + inversion F; subst. rewrite den_seq. eapply One; [exact H|]. eapply Two; [exact H|exact He|]. reflexivity.
      + rewrite den_seq. eapply One; [exact H|]. rewrite den_seq. eapply Two; [exact H|exact He|].
        rewrite IH by exact H. reflexivity.
  Qed.

  Lemma copy_ok : forall es b bs, Forall2 (fun e b => byte e b) es (b :: bs) -> forall l ws f (K : flow -> locals -> M A),
    (forall e b, In e es -> byte e b -> ev e l s = Done (VU R8 b, l) s) ->
    lget l x = Some (VArr r ws f) -> ev ie l s = Done (kv, l) s -> lset l x (VArr r (replace ws k b) true) = Some (L (replace ws k b)) ->
    (k < List.length ws)%nat ->
    dn (copy_text (EIndex (EVar x) ie) es) l K s = K FNext (L (replace ws k (word_of w b bs))) s.
  Proof.
    intros es b bs F l ws f K Hl Hg Hi Hs H. destruct es as [|e es']; [inversion F|].
    assert (He : byte e b) by (inversion F; assumption).
    assert (F' : Forall2 (fun e b => byte e b) es' bs) by (inversion F; assumption). cbn [copy_text].
    rewrite den_seq. eapply do_assign.
    - eapply Hl; [now left|exact He].
    - eapply as_index; [eapply ev_arr; exact Hg|exact Hi|exact Hkv|reflexivity|].
      cbn [store_at]. rewrite Hg. unfold bind.
      assert (to_unsigned E r (VU R8 b) = Some b) as ->.
      { cbn [to_unsigned]. replace (rank_eqb r R8) with false. f_equal. apply N.mod_small. destruct He as (He & _).
        assert (2 ^ 32 <= 2 ^ bits E r) by (apply N.pow_le_mono_r; lia). lia. }
      cbn [lift]. unfold ret at 1. rewrite N.add_0_l, Nat2N.id, aset_ok by exact H. cbn [lift]. unfold ret at 1. rewrite Hs. reflexivity.
    - cbv iota. now apply or_ok.
  Qed.
End Copy.

Lemma lset_same : forall l x v l', lset l x v = Some l' -> lget l' x = Some v.
Proof.
  induction l as [|[y u] t IH]; intros x v l' H; [discriminate|]. cbn [lset] in H. destruct (String.eqb x y) eqn:Q.
  - injection H as <-. cbn [lget]. now rewrite Q.
  - destruct (lset t x v) as [t'|] eqn:Ht; [|discriminate]. injection H as <-. cbn [lget]. rewrite Q. eauto.
Qed.
Lemma lset_other : forall l x v l' y, lset l x v = Some l' -> y <> x -> lget l' y = lget l y.
Proof.
  induction l as [|[z u] t IH]; intros x v l' y H N; [discriminate|]. cbn [lset] in H. destruct (String.eqb_spec x z) as [<-|Q].
  - injection H as <-. cbn [lget]. now rewrite (proj2 (String.eqb_neq _ _) N).
  - destruct (lset t x v) as [t'|] eqn:Ht; [|discriminate]. injection H as <-. cbn [lget]. destruct (String.eqb y z); eauto.
Qed.
Lemma lset_lset : forall l x v l' v', lset l x v = Some l' -> lset l' x v' = lset l x v'.
Proof.
  induction l as [|[z u] t IH]; intros x v l' v' H; [discriminate|]. cbn [lset] in H |- *. destruct (String.eqb x z) eqn:Q.
  - injection H as <-. cbn [lset]. now rewrite Q.
  - destruct (lset t x v) as [t'|] eqn:Ht; [|discriminate]. injection H as <-. cbn [lset]. rewrite Q.
    now rewrite (IH _ _ _ v' Ht).
Qed.
Lemma lset_some : forall l x u v, lget l x = Some u -> exists l', lset l x v = Some l'.
Proof.
  induction l as [|[z w] t IH]; intros x u v H; [discriminate|]. cbn [lget lset] in *. destruct (String.eqb x z); [eauto|].
  destruct (IH _ _ v H) as (t' & ->). eauto.
Qed.

(* the bytes [buf] are what the pointer [v] points to *)
Definition readable (P : program) (s : state) (v : val) (buf : list N) : Prop :=
  forall l a k b, bget buf (a + k) = Some b ->
    exists q r, index v a = Some q /\ index q k = Some r /\ load_at P l r s = Done (VU R8 b) s.

Section Buffer.
  Variables (E : env) (P : program) (call : string -> list val -> M (val * list (option val))) (fuel : nat).
  Notation ev := (eval E P call).
  Variable A : Type.
  Notation dn := (@den E P call fuel A).
  Notation here := (EAddr (EIndex (EVar "buffer") (EVar "buffer_offset"))).

  Lemma ev_buf : forall l s v buf off i kv n b,
    lget l "buffer" = Some v -> is_arr v = false -> lget l "buffer_offset" = Some (VU RSz off) -> readable P s v buf ->
    ev i l s = Done (kv, l) s -> amount kv = Some n -> bget buf (off + n) = Some b ->
    ev (EIndex here i) l s = Done (VU R8 b, l) s.
  Proof.
    intros l s v buf off i kv n b H1 H2 H3 H4 H5 H6 H7. destruct (H4 l _ _ _ H7) as (q & r & Q1 & Q2 & Q3).
    eapply ev_index; [eapply ev_addr; [eapply ev_var; eassumption|eapply ev_var; [eassumption|reflexivity]|reflexivity|exact Q1]
                     |exact H5|exact H6|exact Q2|exact Q3].
  Qed.

  Lemma copy_buffer : forall l s x ie r w ws f kv k v buf off base order idx vv ws' l' (K : flow -> locals -> M A) R,
    rank_eqb r R8 = false -> bits E r = w -> 32 <= w ->
    lget l x = Some (VArr r ws f) -> x <> "buffer" -> x <> "buffer_offset" ->
    lget l "buffer" = Some v -> is_arr v = false -> lget l "buffer_offset" = Some (VU RSz off) ->
    readable P s v buf -> Forall is_byte buf ->
    (forall l1, (forall y, y <> x -> lget l1 y = lget l y) -> ev ie l1 s = Done (kv, l1) s) -> amount kv = Some (N.of_nat k) ->
    (forall l1 n, In n order -> (forall y, y <> x -> lget l1 y = lget l y) ->
       exists jv, ev (idx n) l1 s = Done (jv, l1) s /\ amount jv = Some (base + n)) ->
    copy_to_uint w order buf (off + base) = Some vv -> aset ws k vv = Some ws' -> lset l x (VArr r ws' true) = Some l' ->
    K FNext l' s = R ->
    dn (copy_text (EIndex (EVar x) ie) (map (fun n => EIndex here (idx n)) order)) l K s = R.
  Proof.
    intros l s x ie r w ws f kv k v buf off base order idx vv ws' l' K R Hr Hw H32 Hx Nb No Hb Hba Ho Hrd Hby Hie Hkv Hix Hc Hs Hl HK.
    destruct (copy_to_bytes _ _ _ _ _ Hc) as (b & bs & F & ->).
    destruct (aset_replace _ _ _ _ _ Hs) as (Hk & ->).
    set (L := fun ws => match lset l x (VArr r ws true) with Some l1 => l1 | None => [] end).
    assert (HL : forall ws, lset l x (VArr r ws true) = Some (L ws)).
    { intros u. unfold L. destruct (lset_some l x _ (VArr r u true) Hx) as (l1 & ->). reflexivity. }
    assert (Same : forall ws y, y <> x -> lget (L ws) y = lget l y) by (intros; eapply lset_other; [apply HL|assumption]).
    assert (Byte : forall n b, In n order -> bget buf (off + base + n) = Some b ->
              forall l1, (forall y, y <> x -> lget l1 y = lget l y) -> ev (EIndex here (idx n)) l1 s = Done (VU R8 b, l1) s).
    { intros n c Hn Hc' l1 Sm. destruct (Hix l1 n Hn Sm) as (jv & J1 & J2).
      eapply ev_buf; [rewrite Sm by congruence; exact Hb|exact Hba|rewrite Sm by congruence; exact Ho|exact Hrd|exact J1|exact J2|].
      rewrite N.add_assoc. exact Hc'. }
    assert (Lt : forall n b, bget buf (off + base + n) = Some b -> b < 256).
    { intros n c Hc'. rewrite Forall_forall in Hby. apply Hby. eapply nth_error_In. exact Hc'. }
    erewrite copy_ok with (L := L) (w := w) (r := r) (kv := kv) (k := k) (b := b) (bs := bs) (ws := ws) (f := f); try eassumption.
    - rewrite HL in Hl. injection Hl as ->. exact HK.
    - intros u. eapply lset_same. apply HL.
    - intros u u'. rewrite (lset_lset _ _ _ _ _ (HL u)). apply HL.
    - intros u. apply Hie. intros. now apply Same.
    - clear - F Byte Lt Same. revert F Byte. generalize (b :: bs). induction order as [|n t IH]; intros c F Byte; inversion F; subst; cbn [map]; constructor.
      + split; [eauto|]. intros. eapply Byte; [now left|eassumption|]. intros. now apply Same.
      + apply IH; [assumption|]. intros. eapply Byte; [now right|eassumption|assumption].
    - intros e c He (Hc1 & Hc2). apply in_map_iff in He. destruct He as (n & <- & Hn).
      assert (exists c', bget buf (off + base + n) = Some c') as (c' & Hc').
      { clear - F Hn. revert F. generalize (b :: bs). induction order as [|m t IH]; intros d F; inversion F; subst; [destruct Hn|].
        destruct Hn as [->|Hn]; eauto. }
      pose proof (Byte _ _ Hn Hc' (L ws) ltac:(intros; now apply Same)) as Q. rewrite Hc2 in Q. injection Q as ->.
      eapply Byte; [exact Hn|exact Hc'|reflexivity].
    - apply Hie. reflexivity.
    - apply HL.
  Qed.
End Buffer.

(* ------------------------------------------------------------- the chaining value *)

Section AddHash.
  Variables (E : env) (P : program) (call : string -> list val -> M (val * list (option val))) (fuel : nat).
  Notation ev := (eval E P call).
  Variable A : Type.
  Notation dn := (@den E P call fuel A).
  Variables (a : algid) (p : nat) (y : layout) (r : rank) (w : N) (c : ctx) (s : state) (hv : list N) (f : bool).
  Hypothesis Hy : layout_of P a = Some y.
  Hypothesis Hyr : l_rank y = r.
  Hypothesis Hr : rank_eqb r R8 = false.
  Hypothesis Hw : bits E r = w.
  Hypothesis Hp : get_obj s p = Some (OCtx a c).

  Definition with_hash (h : list N) : state := set_obj p (OCtx a (mk_ctx (c_count c) h (c_boff c) (c_block c))) s.

  Lemma with_hash_same : with_hash (c_hash c) = s.
  Proof. unfold with_hash. destruct c. cbn. now apply set_id. Qed.

  Definition add_text (i : expr) : stmt :=
    SOp OAdd (EIndex (EField (EVar "internal_context") "hash_values") i) (EIndex (EVar "hash_values") i).

  Lemma add_one : forall l i kv k h h' x (K : flow -> locals -> M A) R,
    lget l "internal_context" = Some (VCtx a p) -> lget l "hash_values" = Some (VArr r hv f) ->
    (forall s, ev i l s = Done (kv, l) s) -> amount kv = Some (N.of_nat k) -> aget hv k = Some x ->
    amod h k (fun y => uadd w y x) = Some h' -> K FNext l (with_hash h') = R -> dn (add_text i) l K (with_hash h) = R.
  Proof.
    intros l i kv k h h' x K R H1 H2 H3 H4 H5 H6 H7. unfold amod in H6.
    destruct (aget h k) as [z|] eqn:Hz; [|discriminate]. cbn [obind] in H6.
    eapply do_ctx_add with (c := mk_ctx (c_count c) h (c_boff c) (c_block c)) (k := k) (w := w); try eassumption.
    - eapply load_ctx_ok, get_set_same. exact Hp.
    - apply H3.
    - eapply w_get; [exact H2|apply H3|exact H4|exact H5].
    - unfold with_hash. cbn [c_count c_boff c_block]. eapply store_again. exact Hp.
  Qed.

  Lemma add_each : forall l n h (K : flow -> locals -> M A) R,
    lget l "internal_context" = Some (VCtx a p) -> lget l "hash_values" = Some (VArr r hv f) ->
    add_hash_values w n (c_hash c) hv = Some h -> K FNext l (with_hash h) = R ->
    dn (each (fun i => add_text (EInt (Z.of_nat i))) (seq 0 n)) l K s = R.
  Proof.
    intros l n h K R H1 H2 H3 H4.
    destruct (each_fold E P call fuel A unit _ _ (fun i => add_text (EInt (Z.of_nat i)))
      (fun ch i => x <-? aget hv i; amod ch i (fun y => uadd w y x)) (fun _ _ => l) with_hash (seq 0 n) (c_hash c) h tt) as (u & Hu).
    - intros u h1 h2 i _ Q. destruct (aget hv i) as [x|] eqn:Hx; [|discriminate]. cbn [obind] in Q. exists tt. intros K1.
      eapply add_one; try eassumption; [intros; reflexivity|apply amount_nat|reflexivity].
    - exact H3.
    - rewrite with_hash_same in Hu. rewrite Hu. exact H4.
  Qed.

  Lemma add_for : forall (Lc : nat -> locals) n h l (K : flow -> locals -> M A) R k0,
    (forall i, lget (Lc i) "internal_context" = Some (VCtx a p)) -> (forall i, lget (Lc i) "hash_values" = Some (VArr r hv f)) ->
    (forall i, lget (Lc i) "hash_values_index" = Some (VU R8 (N.of_nat i))) ->
    (forall i j, lset (Lc i) "hash_values_index" (VU R8 (N.of_nat j)) = Some (Lc j)) ->
    lget l "hash_values_index" = Some (VU R8 k0) -> lset l "hash_values_index" (VU R8 0) = Some (Lc O) ->
    add_hash_values w n (c_hash c) hv = Some h -> (n <= fuel)%nat -> (n < 256)%nat -> K FNext (Lc n) (with_hash h) = R ->
    dn (SFor (SAssign (EVar "hash_values_index") (EInt 0)) (EBin OLt (EVar "hash_values_index") (EInt (Z.of_nat n)))
             (SOp OAdd (EVar "hash_values_index") (EInt 1)) (add_text (EVar "hash_values_index"))) l K s = R.
  Proof.
    intros Lc n h l K R k0 H1 H2 H3 H4 H5 H6 H7 Hn H256 H8. rewrite den_for.
    eapply do_assign; [reflexivity|eapply as_u; [exact H5|apply tu_byte; lia|exact H6]|].
    destruct (for_fold E P call fuel A unit _ (fun _ _ => True)
      (fun ch i => x <-? aget hv i; amod ch i (fun y => uadd w y x)) (fun _ _ i => Lc i) with_hash
      (EBin OLt (EVar "hash_values_index") (EInt (Z.of_nat n))) (add_text (EVar "hash_values_index"))
      (SOp OAdd (EVar "hash_values_index") (EInt 1)) n 0 fuel (c_hash c) h tt) as (u & Hu).
    - intros u h1 i. apply w_counter_lt. apply H3.
    - exact I.
    - intros u h1 h2 i Hi _ Q. split; [exact I|]. destruct (aget hv i) as [x|] eqn:Hx; [|discriminate]. cbn [obind] in Q. exists tt. intros K1.
      rewrite den_seq. eapply add_one; try eauto; [intros; eapply ev_var; [apply H3|reflexivity]|apply amount_u|].
      eapply do_inc; [apply H3|lia|apply H4|]. reflexivity.
    - exact H7.
    - exact Hn.
    - rewrite with_hash_same in Hu. cbv beta iota. rewrite Hu. exact H8.
  Qed.
End AddHash.

(* ------------------------------------------------------------- a block into words *)

Notation here := (EAddr (EIndex (EVar "buffer") (EVar "buffer_offset"))).

Definition index_at (sh : Z) (i : expr) (n : N) : expr :=
  if n =? 0 then EBin OShl i (EInt sh) else EBin OAdd (EBin OShl i (EInt sh)) (EInt (Z.of_N n)).

Section CopyBlock.
  Variables (E : env) (P : program) (call : string -> list val -> M (val * list (option val))) (fuel : nat).
  Notation ev := (eval E P call).
  Variable A : Type.
  Notation dn := (@den E P call fuel A).

  Lemma w_index_at : forall sh i n l s, (0 <= sh <= 3)%Z -> (i < 16)%nat -> n < 8 ->
    exists jv, ev (index_at sh (EInt (Z.of_nat i)) n) l s = Done (jv, l) s /\
               amount jv = Some (2 ^ Z.to_N sh * N.of_nat i + n).
  Proof.
    intros sh i n l s Hsh Hi Hn.
    assert (Q : ev (EBin OShl (EInt (Z.of_nat i)) (EInt sh)) l s = Done (VS R32 (2 ^ sh * Z.of_nat i)%Z, l) s).
    { eapply ev_bin; [reflexivity|reflexivity|]. cbn [binary shift promote amount].
      rewrite (proj2 (Z.leb_le 0 sh)) by lia. change (bits E R32) with 32.
      rewrite (proj2 (N.ltb_lt (Z.to_N sh) 32)) by lia. rewrite (proj2 (Z.leb_le 0 (Z.of_nat i))) by lia. cbn [andb].
      rewrite Z.shiftl_mul_pow2, Z2N.id by lia. rewrite Z.mul_comm. apply in_range_int.
      assert (sh = 0 \/ sh = 1 \/ sh = 2 \/ sh = 3)%Z as [->|[->|[->| ->]]] by lia; lia. }
    assert (Pw : (2 ^ sh)%Z = Z.of_N (2 ^ Z.to_N sh)) by (rewrite N2Z.inj_pow, Z2N.id by lia; reflexivity).
    assert (Am : forall z m, z = Z.of_N m -> amount (VS R32 z) = Some m).
    { intros z m ->. cbn [amount]. rewrite (proj2 (Z.leb_le 0 _)) by lia. now rewrite N2Z.id. }
    unfold index_at. destruct (N.eqb_spec n 0) as [->|Hn0].
    - eexists. split; [exact Q|]. apply Am. rewrite Pw. lia.
    - eexists. split.
      + eapply ev_bin; [exact Q|reflexivity|]. erewrite bin_int; [|reflexivity|reflexivity|discriminate|discriminate].
        cbn [arith]. apply in_range_int.
        assert (sh = 0 \/ sh = 1 \/ sh = 2 \/ sh = 3)%Z as [->|[->|[->| ->]]] by lia; lia.
      + apply Am. rewrite Pw. lia.
  Qed.

  Variables (x xi : string) (r : rank) (w : N) (sh : Z) (order : list N) (s : state) (v : val) (buf : list N).
  Hypothesis Hr : rank_eqb r R8 = false.
  Hypothesis Hw : bits E r = w.
  Hypothesis H32 : 32 <= w.
  Hypothesis Nb : x <> "buffer".
  Hypothesis No : x <> "buffer_offset".
  Hypothesis Nx : xi <> x.
  Hypothesis Ni : xi <> "buffer_offset".
  Hypothesis Ha : is_arr v = false.
  Hypothesis Hrd : readable P s v buf.
  Hypothesis Hby : Forall is_byte buf.
  Hypothesis Hord : Forall (fun n => n < 8) order.
  Hypothesis Hsh : (0 <= sh <= 3)%Z.
  Hypothesis Hsw : 2 ^ Z.to_N sh = w / 8.

  Lemma copy16_each : forall (Lv : bool -> list N -> locals) table off vals vals' f,
    (forall f ws, lget (Lv f ws) x = Some (VArr r ws f)) ->
    (forall f ws ws', lset (Lv f ws) x (VArr r ws' true) = Some (Lv true ws')) ->
    (forall f ws, lget (Lv f ws) "buffer" = Some v) -> (forall f ws, lget (Lv f ws) "buffer_offset" = Some (VU RSz off)) ->
    Forall (fun i => (i < 16)%nat) table -> copy_16x w order table buf off vals = Some vals' ->
    exists f', forall (K : flow -> locals -> M A),
      dn (each (fun i => copy_text (EIndex (EVar x) (EInt (Z.of_nat i)))
                           (map (fun n => EIndex here (index_at sh (EInt (Z.of_nat i)) n)) order)) table) (Lv f vals) K s =
      K FNext (Lv f' vals') s.
  Proof.
    intros Lv table off vals vals' f H1 H2 H3 H4 Ht Hc. unfold copy_16x in Hc.
    eapply (each_fold E P call fuel A bool (list N) nat) with (L := Lv) (st := fun _ => s) (2 := Hc).
    intros g y y' i Hi Q. cbv beta in Q. destruct (copy_to_uint w order buf (off + w / 8 * N.of_nat i)) as [u|] eqn:Hu; [|discriminate].
    cbn [obind] in Q. exists true. intros K. rewrite Forall_forall in Ht, Hord.
    eapply copy_buffer with (w := w) (off := off) (base := w / 8 * N.of_nat i) (buf := buf) (kv := VS R32 (Z.of_nat i)) (k := i)
      (idx := fun n => index_at sh (EInt (Z.of_nat i)) n);
      [exact Hr|exact Hw|exact H32|apply H1|exact Nb|exact No|apply H3|exact Ha|apply H4|exact Hrd|exact Hby
      |intros; reflexivity|apply amount_nat| |exact Hu|exact Q|apply H2|reflexivity].
    intros l1 n Hn _. rewrite <- Hsw. apply w_index_at; auto.
  Qed.

  Lemma copy16_for : forall (Lv : bool -> N * list N -> nat -> locals) off vals off' vals' f l k0 ,
    (forall f ws i, lget (Lv f ws i) x = Some (VArr r (snd ws) f)) ->
    (forall f ws ws' i, lset (Lv f ws i) x (VArr r ws' true) = Some (Lv true (fst ws, ws') i)) ->
    (forall f ws i, lget (Lv f ws i) "buffer" = Some v) ->
    (forall f ws i, lget (Lv f ws i) "buffer_offset" = Some (VU RSz (fst ws))) ->
    (forall f ws o i, lset (Lv f ws i) "buffer_offset" (VU RSz o) = Some (Lv f (o, snd ws) i)) ->
    (forall f ws i, lget (Lv f ws i) xi = Some (VU R8 (N.of_nat i))) ->
    (forall f ws i j, lset (Lv f ws i) xi (VU R8 (N.of_nat j)) = Some (Lv f ws j)) ->
    lget l xi = Some (VU R8 k0) -> lset l xi (VU R8 0) = Some (Lv f (off, vals) O) ->
    copy_loop w order buf off vals = Some (off', vals') -> (16 <= fuel)%nat -> off + 2 * w < size_mod E ->
    exists f', forall (K : flow -> locals -> M A),
      dn (SFor (SAssign (EVar xi) (EInt 0)) (EBin OLt (EVar xi) (EInt 16)) (SOp OAdd (EVar xi) (EInt 1))
            (copy_text (EIndex (EVar x) (EVar xi)) (map (fun n => EIndex here (EInt (Z.of_N n))) order) ;-
             SOp OAdd (EVar "buffer_offset") (ESize (w / 8)))) l K s =
      K FNext (Lv f' (off', vals') 16%nat) s.
  Proof.
    intros Lv off vals off' vals' f l k0 H1 H2 H3 H4 H5 H6 H7 H8 H9 Hc Hfu Hoff. unfold copy_loop in Hc.
    assert (W8 : 16 * (w / 8) <= 2 * w) by (pose proof (N.mul_div_le w 8 ltac:(lia)); lia).
    destruct (for_fold E P call fuel A bool (N * list N) (fun y i => fst y = off + w / 8 * N.of_nat i)
      (fun st i => let '(off, vals) := st in
           v <-? copy_to_uint w order buf off; vals' <-? aset vals i v; Some (off + w / 8, vals'))
      Lv (fun _ => s) (EBin OLt (EVar xi) (EInt (Z.of_nat 16)))
      (copy_text (EIndex (EVar x) (EVar xi)) (map (fun n => EIndex here (EInt (Z.of_N n))) order) ;-
             SOp OAdd (EVar "buffer_offset") (ESize (w / 8))) (SOp OAdd (EVar xi) (EInt 1)) 16 0 fuel (off, vals) (off', vals') f) as (f' & Hf).
    - intros. apply w_counter_lt. apply H6.
    - cbn [fst]. lia.
    - intros g [o ws] y' i Hi Ho Q. cbn [fst] in Ho. cbv beta iota in Q.
      destruct (copy_to_uint w order buf o) as [u|] eqn:Hu; [|discriminate]. cbn [obind] in Q.
      destruct (aset ws i u) as [ws'|] eqn:Hs; [|discriminate]. cbn [obind] in Q. injection Q as <-. cbn [fst]. split; [lia|].
      exists true. intros K. rewrite den_seq, den_seq.
      eapply copy_buffer with (w := w) (off := o) (base := 0) (buf := buf) (kv := VU R8 (N.of_nat i)) (k := i)
        (idx := fun n => EInt (Z.of_N n));
        [exact Hr|exact Hw|exact H32|apply H1|exact Nb|exact No|apply H3|exact Ha|apply H4|exact Hrd|exact Hby
        | |apply amount_u| |rewrite N.add_0_r; exact Hu|exact Hs|apply H2|].
      + intros l1 Sm. eapply ev_var; [|reflexivity]. rewrite Sm by exact Nx. apply H6.
      + intros l1 n Hn _. eexists. split; [reflexivity|]. cbn [amount]. rewrite (proj2 (Z.leb_le 0 _)) by lia. now rewrite N2Z.id.
      + cbv iota. eapply do_word_add with (r := RSz); [reflexivity|reflexivity|apply H4|reflexivity|apply H5|]. cbv iota. cbn [fst snd].
        assert (uadd (bits E RSz) o (w / 8) = o + w / 8) as ->.
        { unfold uadd. rewrite bits_size_mod. apply N.mod_small. assert (w / 8 * N.of_nat i <= w / 8 * 15) by (apply N.mul_le_mono_l; lia). lia. }
        eapply do_inc; [apply H6|lia|apply H7|reflexivity].
    - exact Hc.
    - exact Hfu.
    - exists f'. intros K. rewrite den_for. eapply do_assign; [reflexivity|eapply as_u; [exact H8|apply tu_byte; lia|exact H9]|].
      cbv iota beta. apply Hf.
  Qed.
End CopyBlock.

(* ------------------------------------------------------------- tactics *)

Lemma w_lit_sub : forall E P call x y l s c, (x - y)%Z = c -> (- 2 ^ 31 <= c < 2 ^ 31)%Z ->
  eval E P call (EBin OSub (EInt x) (EInt y)) l s = Done (VS R32 c, l) s.
Proof.
  intros. eapply ev_bin; [reflexivity|reflexivity|]. erewrite bin_int; [|reflexivity|reflexivity|discriminate|discriminate].
  cbn [arith]. rewrite H. now apply in_range_int.
Qed.

(* x rotated by an amount of type uint8_t *)
Lemma w_rotl8 : forall E P call x b l s v n,
  eval E P call x l s = Done (VU R32 v, l) s -> eval E P call b l s = Done (VU R8 n, l) s -> 0 < n < 32 ->
  eval E P call (EBin OOr (EBin OShl x b) (EBin OShr x (EBin OSub (EInt 32) b))) l s = Done (VU R32 (rotl 32 v n), l) s.
Proof.
  intros E P call x b l s v n Hx Hb Hn. unfold rotl. eapply w_or; [reflexivity| |].
  - eapply w_shl; [reflexivity|reflexivity|exact Hx|exact Hb|reflexivity|lia].
  - eapply w_shr; [reflexivity|reflexivity|exact Hx| | |].
    + eapply ev_bin; [reflexivity|exact Hb|]. erewrite bin_int; [|reflexivity|reflexivity|discriminate|discriminate].
      cbn [arith]. apply in_range_int. lia.
    + cbn [amount]. rewrite (proj2 (Z.leb_le _ _)) by lia. f_equal. rewrite Z2N.inj_sub by lia. rewrite N2Z.id. reflexivity.
    + cbn [bits]. lia.
Qed.

Ltac wamt :=
  match goal with
  | |- amount (VS _ (Z.of_nat _)) = _ => apply amount_nat
  | |- amount (VU _ (N.of_nat _)) = _ => reflexivity
  | |- amount (VS ?r ?z) = _ => let k := eval cbv in (Z.to_nat z) in exact (amount_nat r k)
  end.
Ltac wnum :=
  match goal with |- amount ?v = Some _ => let k := eval cbv in (amount v) in change (amount v) with k; reflexivity end.

Ltac wbits := cbn [bits]; reflexivity.
Ltac wev :=
  match goal with
  | |- eval _ _ _ (EVar _) _ _ = _ => eapply ev_var; [bypair | reflexivity]
  | |- eval _ _ _ (EInt _) _ _ = _ => reflexivity
  | |- eval _ _ _ (ELong _) _ _ = _ => reflexivity
  | |- eval _ _ _ (ESize _) _ _ = _ => reflexivity
  | |- eval _ _ _ (EIndex (EVar _) _) _ _ = _ =>
      first [ eapply w_get; [bypair | wev | wamt | eassumption]
            | eapply w_tab; [bypair | eassumption | wev | wamt | eassumption] ]
  | |- eval _ _ _ (EBin OSub (EInt ?x) (EInt ?y)) _ _ = _ =>
      let d := eval cbv in (x - y)%Z in eapply w_lit_sub with (c := d); [reflexivity | lia]
  | |- eval _ _ _ (EBin OSub _ (EInt ?z)) _ _ = _ =>
      let d := eval cbv in (Z.to_nat z) in
      eapply w_index_sub with (j := d); [wev | first [reflexivity | apply promote_counter] | reflexivity | lia]
  | |- eval _ _ _ (EBin OAnd _ _) _ _ = _ => eapply w_and; [ | wev | wev]; reflexivity
  | |- eval _ _ _ (EBin OOr _ _) _ _ = _ => eapply w_or; [ | wev | wev]; reflexivity
  | |- eval _ _ _ (EBin OXor _ _) _ _ = _ => eapply w_xor; [ | wev | wev]; reflexivity
  | |- eval _ _ _ (EBin OAdd _ _) _ _ = _ => eapply w_add; [ | | wev | wev]; [reflexivity | wbits]
  | |- eval _ _ _ (ENot _) _ _ = _ => eapply w_not; [ | | wev]; [reflexivity | wbits]
  | |- eval _ _ _ (EBin OShl _ _) _ _ = _ => eapply w_shl; [ | | wev | wev | wnum | ]; [reflexivity | wbits | reflexivity]
  | |- eval _ _ _ (EBin OShr _ _) _ _ = _ => eapply w_shr; [ | | wev | wev | wnum | ]; [reflexivity | wbits | reflexivity]
  | |- eval _ _ _ ?e _ _ = _ => let e' := eval hnf in e in progress change e with e'; wev
  end.

Ltac wst :=
  match goal with
  | |- den (SSeq _ _) _ _ _ = _ => apply den_seq_named; intros ? ? ? ?
  | |- den (SAssign (EIndex (EVar _) _) _) _ _ _ = _ =>
      eapply do_set; [solve [wev] | bypair | solve [wev] | wamt | eassumption | bypair | ]
  | |- den (SOp OAdd (EIndex (EVar _) _) (ELong _)) _ _ _ = _ =>
      eapply do_add_long; [bypair | solve [wev] | wamt | eassumption | eassumption | bypair | ]
  | |- den (SOp OAdd (EIndex (EVar _) _) _) _ _ _ = _ =>
      eapply do_add; [ | | bypair | solve [wev] | wamt | eassumption | solve [wev] | eassumption | bypair | ];
      [reflexivity | wbits | ]
  | |- den (SAssign (EVar _) _) _ _ _ = _ => eapply do_word; [bypair | solve [wev] | bypair | ]
  | |- den (SOp OAdd (EVar _) _) _ _ _ = _ =>
      eapply do_word_add; [ | | bypair | solve [wev] | bypair | ]; [reflexivity | wbits | ]
  | |- _ => tk
  end.

(* the steps of the model that succeeded *)
Ltac opts :=
  repeat (cbv beta iota in *;
          match goal with
          | H : match ?x with Some _ => _ | None => None end = Some _ |- _ => destruct x eqn:?; [|discriminate H]
          end).
