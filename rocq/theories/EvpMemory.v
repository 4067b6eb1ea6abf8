(* What the builds on a message digest provider leave in the memory that they free. *)
From Coq Require Import Arith NArith ZArith List Bool Lia.
From Verif Require Import Words Spec Machine MachineFacts Context ContextFacts Hash HashFacts Vocab ErrorVocab ErrorFacts SumErrors Evp EvpVocab EvpFacts EvpErrorVocab EvpErrors.
Import ListNotations.
Open Scope N_scope.

(* ------------------------------------------------------------- stores *)

Lemma replace_eq : forall A (l : list A) i v w, nth_error l i = Some w -> nth_error (replace l i v) i = Some v.
Proof. intros A l i v w H. apply replace_same. apply nth_error_Some. congruence. Qed.
Lemma free_length : forall p s x s', mfree p s = Done x s' -> length (mem s') = length (mem s).
Proof. intros p s x s' H. unfold mfree in H. destruct (nth_error (mem s) p) as [[[] [] o]|]; try discriminate. injection H as <- <-. apply replace_length. Qed.

(* the same cells, none of the dead ones changed, and no array has another length except in X *)
Definition keep (X : list nat) (s s' : state) : Prop :=
  length (mem s') = length (mem s) /\
  forall q c', nth_error (mem s') q = Some c' -> exists c, nth_error (mem s) q = Some c /\ knd c' = knd c /\ live c' = live c /\ (live c = false -> c' = c) /\
    (~ In q X -> forall l, content c = OBytes l -> exists l', content c' = OBytes l' /\ length l' = length l).

Lemma keep_refl : forall X s s', mem s' = mem s -> keep X s s'.
Proof. intros X s s' H. split; [now rewrite H|]. intros q c' Q. exists c'. rewrite H in Q. split; [exact Q|]. repeat split; try reflexivity. intros _ l L. now exists l. Qed.
Lemma keep_trans : forall X s s1 s2, keep X s s1 -> keep X s1 s2 -> keep X s s2.
Proof.
  intros X s s1 s2 (L1 & K1) (L2 & K2). split; [congruence|]. intros q c2 Q2. destruct (K2 _ _ Q2) as (c1 & Q1 & A1 & A2 & A3 & A4). destruct (K1 _ _ Q1) as (c & Q & B1 & B2 & B3 & B4).
  exists c. split; [exact Q|]. split; [congruence|]. split; [congruence|]. split; [intros D; rewrite A3; [now apply B3|congruence]|].
  intros NI l C. destruct (B4 NI l C) as (l1 & C1 & E1). destruct (A4 NI l1 C1) as (l2 & C2 & E2). exists l2. split; [exact C2|congruence].
Qed.
Lemma keep_put : forall X p o s s', put_obj p o s = Some s' -> (In p X \/ forall l, get_obj s p = Some (OBytes l) -> exists l', o = OBytes l' /\ length l' = length l) -> keep X s s'.
Proof.
  intros X p o s s' H C. unfold put_obj in H. destruct (nth_error (mem s) p) as [c|] eqn:Q; [|discriminate]. destruct (live c) eqn:L; [|discriminate]. injection H as <-.
  split; [apply replace_length|]. intros q c' Q'. cbn [mem set_mem] in Q'. destruct (Nat.eq_dec q p) as [->|D].
  - rewrite (replace_eq _ _ _ _ _ Q) in Q'. injection Q' as <-. exists c. split; [exact Q|]. split; [reflexivity|]. split; [now rewrite L|]. split; [congruence|]. intros NI l Cl. cbn [content].
    destruct C as [I|C]; [contradiction|]. apply C. unfold get_obj. now rewrite Q, L, Cl.
  - rewrite replace_other in Q' by congruence. exists c'. split; [exact Q'|]. repeat split; try reflexivity. intros _ l Cl. now exists l.
Qed.

Definition keeps {A} (X : list nat) (m : M A) : Prop := forall s x s', m s = Done x s' -> keep X s s'.
Lemma k_ret : forall A X (x : A), keeps X (ret x).
Proof. intros A X x s y s' [= <- <-]. now apply keep_refl. Qed.
Lemma k_bind : forall A B X (m : M A) (f : A -> M B), keeps X m -> (forall x, keeps X (f x)) -> keeps X (bind m f).
Proof. intros A B X m f Hm Hf s x s' H. apply bind_inv in H as (y & s1 & H1 & H). eapply keep_trans; [exact (Hm _ _ _ H1)|exact (Hf _ _ _ _ H)]. Qed.
Lemma k_view : forall X p, keeps X (view p).
Proof. intros X p s x s' H. unfold view in H. destruct (get_obj s (fst p)) as [[l| |]|]; try discriminate. destruct (snd p <=? N.of_nat (length l)); [|discriminate]. injection H as <- <-. now apply keep_refl. Qed.
Lemma k_lift : forall A X (o : option A), keeps X (lift o).
Proof. intros A X [x|]; [apply k_ret|]. intros s x s' H. discriminate. Qed.
Lemma splice_len : forall l o d l', splice l o d = Some l' -> length l' = length l.
Proof. intros l o d l' H. unfold splice in H. destruct (N.leb_spec (o + N.of_nat (length d)) (N.of_nat (length l))) as [L|]; [|discriminate]. injection H as <-. rewrite !app_length, firstn_length, skipn_length. lia. Qed.
Lemma k_write : forall X p d, keeps X (write p d).
Proof.
  intros X p d s x s' H. unfold write in H. destruct (get_obj s (fst p)) as [[l| |]|] eqn:G; try discriminate. destruct (splice l (snd p) d) as [l'|] eqn:Sp; [|discriminate].
  destruct (put_obj (fst p) (OBytes l') s) eqn:Q; [|discriminate]. injection H as <- <-. eapply keep_put; [exact Q|]. right. intros l0. rewrite G. intros [= <-]. exists l'. split; [reflexivity|]. exact (splice_len _ _ _ _ Sp).
Qed.
Lemma k_mcopy : forall X p q n, keeps X (mcopy p q n).
Proof.
  intros X p q n. unfold mcopy. destruct (disjoint_ranges p q n); [|intros s x s' H; discriminate].
  apply k_bind; [apply k_view|]. intros x. apply k_bind; [apply k_lift|]. intros y. apply k_write.
Qed.
Lemma k_read : forall X p, keeps X (read_byte p).
Proof. intros X p. apply k_bind; [apply k_view|]. intros. apply k_lift. Qed.
Lemma k_mfold : forall A B X (f : A -> B -> M A) l x, (forall x y, keeps X (f x y)) -> keeps X (mfold f l x).
Proof. intros A B X f l. induction l as [|y l IH]; intros x H; cbn [mfold]; [apply k_ret|]. apply k_bind; [apply H|]. intros z. now apply IH. Qed.
Lemma k_xor : forall X ip op kd n, keeps X (hmac_xor ip op kd n).
Proof.
  intros X ip op kd n. unfold hmac_xor. apply k_mfold. intros u i. destruct u. unfold hmac_xor_step.
  repeat (apply k_bind; [first [apply k_read|apply k_write]|intros]). apply k_write.
Qed.
Lemma k_store : forall X q c, In q X -> keeps X (store_provider q c).
Proof.
  intros X q c I s x s' H. unfold store_provider in H. destruct (get_obj s q) as [[l| |]|]; try discriminate.
  destruct (put_obj q (OBytes c) s) eqn:Q; [|discriminate]. injection H as <- <-. eapply keep_put; [exact Q|now left].
Qed.
Lemma k_set : forall X p q, keeps X (set_provider_context p q).
Proof.
  intros X p q s x s' H. unfold set_provider_context in H. destruct (get_obj s p) as [[| |r]|] eqn:G; try discriminate.
  destruct (put_obj p (OPtr q) s) eqn:Q; [|discriminate]. injection H as <- <-. eapply keep_put; [exact Q|]. right. intros l. rewrite G. discriminate.
Qed.

(* the other cells *)
Definition elsewhere (p : nat) (s s' : state) : Prop := forall q, q <> p -> nth_error (mem s') q = nth_error (mem s) q.
Lemma put_elsewhere : forall p o s s', put_obj p o s = Some s' -> elsewhere p s s'.
Proof.
  intros p o s s' H q D. unfold put_obj in H. destruct (nth_error (mem s) p) as [c|]; [|discriminate]. destruct (live c); [|discriminate]. injection H as <-.
  cbn [mem set_mem]. rewrite replace_other by congruence. reflexivity.
Qed.
Lemma write_elsewhere : forall p d s x s', write p d s = Done x s' -> elsewhere (fst p) s s'.
Proof.
  intros p d s x s' H. unfold write in H. destruct (get_obj s (fst p)) as [[l| |]|]; try discriminate. destruct (splice l (snd p) d) as [l'|]; [|discriminate].
  destruct (put_obj (fst p) (OBytes l') s) eqn:Q; [|discriminate]. injection H as <- <-. exact (put_elsewhere _ _ _ _ Q).
Qed.

Section Memory.
  Variables (E : env) (P : provider) (v : variant) (a : algid).
  Variable n0 : nat.   (* the cells from here on are new *)

  Record tidy (A X : list nat) (s : state) : Prop := {
    td_cells : forall q c, (n0 <= q)%nat -> nth_error (mem s) q = Some c -> knd c = Heap ->
      (In q A /\ exists l, content c = OBytes l /\ length l = N.to_nat (block_size a)) \/ In q X \/ cleared P a c;
    td_arrays : forall q, In q A -> (n0 <= q < length (mem s))%nat /\ ~ In q X;
  }.

  Lemma tidy_keep : forall A X X' s s', keep X' s s' -> (forall q, In q X' -> In q X) -> tidy A X s -> tidy A X s'.
  Proof.
    intros A X X' s s' (L & K) I [T1 T2]. split.
    - intros q c' N0 Q H. destruct (K _ _ Q) as (c & Q0 & K1 & K2 & K3 & K4). destruct (T1 q c N0 Q0) as [(IA & l & C & Le)|[IX|C]]; [congruence| |right; now left|].
      + left. split; [exact IA|]. destruct (K4 (fun y => proj2 (T2 _ IA) (I _ y)) l C) as (l' & C' & E'). exists l'. split; [exact C'|congruence].
      + right. right. rewrite K3; [exact C|]. now destruct C.
    - intros q IA. rewrite L. now apply T2.
  Qed.
  Lemma tidy_mem : forall A X s s', mem s' = mem s -> tidy A X s -> tidy A X s'.
  Proof. intros A X s s' H. apply (tidy_keep A X [] s s' (keep_refl _ _ _ H)). intros q []. Qed.
  Lemma tidy_more : forall A X X' s, (forall q, In q X -> In q X') -> (forall q, In q A -> ~ In q X') -> tidy A X s -> tidy A X' s.
  Proof. intros A X X' s I D [T1 T2]. split; [|intros q IA; split; [now apply T2|now apply D]]. intros q c N0 Q H. destruct (T1 q c N0 Q H) as [?|[?|?]]; auto. Qed.

  (* a new cell *)
  Lemma tidy_new : forall A X o s, tidy A X s -> (n0 <= length (mem s))%nat -> tidy A (length (mem s) :: X) (tick (new_cell Heap o s)).
  Proof.
    intros A X o s [T1 T2] L. assert (Le : length (mem (tick (new_cell Heap o s))) = S (length (mem s))) by (cbn; rewrite app_length; cbn; lia). split.
    - intros q c N0 Q H. cbn [mem tick new_cell] in Q. destruct (Nat.lt_ge_cases q (length (mem s))) as [Lt|Ge].
      + rewrite nth_error_app1 in Q by exact Lt. destruct (T1 q c N0 Q H) as [?|[?|?]]; cbn; auto.
      + right. left. left. assert (q < length (mem s ++ [mk_cell true Heap o]))%nat by (apply nth_error_Some; congruence). rewrite app_length in H0. cbn in H0. lia.
    - intros q IA. destruct (T2 _ IA). rewrite Le. split; [lia|]. intros [<-|IX]; [lia|contradiction].
  Qed.
  Lemma tidy_array : forall A X o s, tidy A X s -> (n0 <= length (mem s))%nat -> (forall q, In q X -> (q < length (mem s))%nat) ->
    (exists l, o = OBytes l /\ length l = N.to_nat (block_size a)) -> tidy (length (mem s) :: A) X (tick (new_cell Heap o s)).
  Proof.
    intros A X o s [T1 T2] L LX Ho. assert (Le : length (mem (tick (new_cell Heap o s))) = S (length (mem s))) by (cbn; rewrite app_length; cbn; lia). split.
    - intros q c N0 Q H. cbn [mem tick new_cell] in Q. destruct (Nat.lt_ge_cases q (length (mem s))) as [Lt|Ge].
      + rewrite nth_error_app1 in Q by exact Lt. destruct (T1 q c N0 Q H) as [(?&?)|[?|?]]; cbn; auto.
      + assert (q < length (mem s ++ [mk_cell true Heap o]))%nat by (apply nth_error_Some; congruence). rewrite app_length in H0. cbn in H0. assert (q = length (mem s)) as -> by lia.
        left. split; [now left|]. rewrite nth_error_app2, Nat.sub_diag in Q by lia. injection Q as <-. exact Ho.
    - intros q [<-|IA].
      + rewrite Le. split; [lia|]. intros IX. specialize (LX _ IX). lia.
      + destruct (T2 _ IA). rewrite Le. split; [lia|assumption].
  Qed.

  (* freeing a cell with nothing of a message or a key in it *)
  Lemma tidy_free : forall A X A' X' q s x s', mfree q s = Done x s' -> tidy A X s ->
    (forall c, nth_error (mem s) q = Some c -> cleared P a (mk_cell false (knd c) (content c))) ->
    (forall y, In y A -> y <> q -> In y A') -> (forall y, In y A' -> In y A) -> (forall y, In y X -> y <> q -> In y X') -> (forall y, In y X' -> In y X) -> tidy A' X' s'.
  Proof.
    intros A X A' X' q s x s' H [T1 T2] C I1 I2 I3 I4. unfold mfree in H. destruct (nth_error (mem s) q) as [[[] [] o]|] eqn:Q; try discriminate. injection H as <- <-. split.
    - intros y c N0 Y K. cbn [mem set_mem] in Y. destruct (Nat.eq_dec y q) as [->|D].
      + rewrite (replace_eq _ _ _ _ _ Q) in Y. injection Y as <-. right. right. exact (C _ eq_refl).
      + rewrite replace_other in Y by congruence. destruct (T1 y c N0 Y K) as [(?&?)|[?|?]]; auto.
    - intros y IA. cbn [mem set_mem]. rewrite replace_length. destruct (T2 _ (I2 _ IA)). split; [assumption|]. intros IX. auto.
  Qed.

  (* an array is cleared and freed *)
  Lemma tidy_clear : forall A X q s s1 s' u u', mset (q, 0) 0 (block_size a) s = Done u s1 -> mfree q s1 = Done u' s' -> tidy (q :: A) X s -> tidy A X s'.
  Proof.
    intros A X q s s1 s' u u' H1 H2 T. assert (T' : tidy (q :: A) X s1) by (eapply (tidy_keep _ _ []); [exact (k_write _ _ _ _ _ _ H1)|intros y []|exact T]).
    eapply (tidy_free _ _ A X q); [exact H2|exact T'| |intros y [<-|I] D; [now elim D|exact I]|intros y I; now right|auto|auto].
    intros c Q. split; [reflexivity|]. left. cbn [content]. destruct (td_arrays _ _ _ T q (or_introl eq_refl)) as ((L0 & L1) & NX).
    unfold mset, write in H1. cbn [fst snd] in H1. unfold get_obj in H1. destruct (nth_error (mem s) q) as [c0|] eqn:Q0; [|discriminate]. destruct (live c0) eqn:Lc; [|discriminate].
    destruct (content c0) as [l| |] eqn:C0; try discriminate. destruct (splice l 0 _) as [l'|] eqn:Sp; [|discriminate]. unfold put_obj in H1. rewrite Q0, Lc in H1. injection H1 as <- <-.
    cbn [mem set_mem] in Q. rewrite (replace_eq _ _ _ _ _ Q0) in Q. injection Q as <-. cbn [content].
    assert (Hk : knd c0 = Heap).
    { unfold mfree in H2. cbn [mem set_mem] in H2. rewrite (replace_eq _ _ _ _ _ Q0) in H2. destruct (knd c0); [reflexivity|discriminate]. }
    assert (Le : length l = N.to_nat (block_size a)).
    { destruct (td_cells _ _ _ T q c0 L0 Q0 Hk) as [(_ & l0 & C & Le)|[IX|(D & _)]]; [congruence|contradiction|congruence]. }
    f_equal. unfold splice in Sp. destruct (_ <=? _) in Sp; [|discriminate]. injection Sp as <-. cbn [N.to_nat firstn app plus]. rewrite repeat_length, skipn_all2 by (cbn; lia). apply app_nil_r.
  Qed.

  (* -------------------------------------------------------- the functions of a context *)

  (* the context of the caller: none, or one whose cells are from n1 on and hold what the provider left *)
  Definition held (n1 : nat) (A : list nat) (c : option nat) (s : state) : Prop :=
    match c with
    | None => tidy A [] s
    | Some p => exists fp l, own v s p fp l /\ left_by P a l /\ (forall q, In q fp -> (n1 <= q)%nat) /\ tidy A fp s
    end.
  Lemma held_mem : forall n1 A c s s', mem s' = mem s -> held n1 A c s -> held n1 A c s'.
  Proof.
    intros n1 A [p|] s s' M; [|now apply tidy_mem]. intros (fp & l & O & L & F & T). exists fp, l. split; [eapply own_same; [exact O|]; intros q _; now rewrite M|].
    split; [exact L|]. split; [exact F|]. now apply (tidy_mem _ _ s).
  Qed.

  Lemma init_held : forall A e s r s', evp_initialize E P v a (Some None) e s = Done r s' -> tidy A [] s -> (n0 <= length (mem s))%nat ->
    held (length (mem s)) A (snd r) s' /\ (length (mem s) <= length (mem s'))%nat.
  Proof.
    intros A e s r s' H T L. unfold evp_initialize in H. apply bind_inv in H as (p & s1 & H1 & H). destruct (alloc_ok E (tries s)) eqn:Al.
    2:{ rewrite allocate_no in H1 by exact Al. injection H1 as <- <-. apply bind_inv in H as (u & s2 & H2 & H). rewrite fail_eq in H2. injection H2 as <- <-. injection H as <- <-.
        split; [now apply (tidy_mem _ _ s)|cbn; lia]. }
    rewrite allocate_ok in H1 by exact Al. injection H1 as <- <-. set (o := match v with Outside => OPtr None | _ => OBytes [] end) in *. set (s1 := tick (new_cell Heap o s)) in *. set (p := length (mem s)) in *.
    assert (T1 : tidy A [p] s1) by (now apply tidy_new). assert (C1 : nth_error (mem s1) p = Some (mk_cell true Heap o)) by exact (nth_new Heap o s).
    assert (L1 : length (mem s1) = S p) by (unfold s1, p, new_cell, tick; cbn [mem]; rewrite app_length; cbn; lia).
    assert (Alone : v <> Outside -> (r <- provider_init P a p ;; if (r =? 1)%Z then ret (1%Z, Some p) else r <- fail e E_RUNTIME_INITIALIZE_FAILED ;; mfree p ;;; ret (r, None)) s1 = Done r s' ->
      held p A (snd r) s' /\ (p <= length (mem s'))%nat).
    { intros NO X. apply bind_inv in X as (z & s2 & H2 & X). unfold provider_init, ask in H2. apply bind_inv in H2 as (w & s3 & H3 & H2). injection H3 as <- <-.
      apply bind_inv in H2 as (u & s4 & H4 & H2). injection H2 as <- <-.
      pose proof (k_store [p] p _ (or_introl eq_refl) _ _ _ H4) as K. pose proof (tidy_keep A [p] [p] s1 s4 K (fun _ i => i) T1) as T4. destruct K as (K4 & _).
      assert (C4 : nth_error (mem s4) p = Some (mk_cell true Heap (OBytes (snd (p_init P a s1))))).
      { unfold store_provider in H4. destruct (get_obj s1 p) as [[]|]; try discriminate. unfold put_obj in H4. rewrite C1 in H4. cbn [live knd] in H4. injection H4 as _ <-. cbn [mem set_mem]. exact (replace_eq _ _ _ _ _ C1). }
      assert (LB : left_by P a (snd (p_init P a s1))) by (left; eauto).
      destruct (fst (p_init P a s1) =? 1)%Z.
      - injection X as <- <-. cbn [snd]. split; [|lia]. exists [p], (snd (p_init P a s1)). split; [destruct v; try congruence; now split|]. split; [exact LB|]. split; [intros q [<-|[]]; lia|exact T4].
      - apply bind_inv in X as (z & s5 & H5 & X). rewrite fail_eq in H5. injection H5 as <- <-. apply bind_inv in X as (u' & s6 & H6 & X). injection X as <- <-. cbn [snd].
        split; [|rewrite (free_length _ _ _ _ H6); cbn; lia]. eapply (tidy_free A [p] A [] p); [exact H6|now apply (tidy_mem _ _ s4)| |auto|auto|intros y [<-|[]] D; now elim D|intros y []].
        intros c Q. cbn in Q. rewrite C4 in Q. injection Q as <-. split; [reflexivity|]. right. right. cbn. eauto. }
    fold p in H. destruct v eqn:V; [apply Alone; [discriminate|exact H]|apply Alone; [discriminate|exact H]|]. clear Alone.
    apply bind_inv in H as (q & s2 & H2 & H). destruct (alloc_ok E (tries s1)) eqn:Al2.
    2:{ rewrite allocate_no in H2 by exact Al2. injection H2 as <- <-. apply bind_inv in H as (z & s3 & H3 & H). rewrite fail_eq in H3. injection H3 as <- <-. apply bind_inv in H as (u & s4 & H4 & H). injection H as <- <-. cbn [snd].
        split; [|rewrite (free_length _ _ _ _ H4); cbn in *; lia]. eapply (tidy_free A [p] A [] p); [exact H4|now apply (tidy_mem _ _ s1)| |auto|auto|intros y [<-|[]] D; now elim D|intros y []].
        intros c Q. cbn in Q. cbn in C1. rewrite C1 in Q. injection Q as <-. split; [reflexivity|]. right. left. reflexivity. }
    rewrite allocate_ok in H2 by exact Al2. injection H2 as <- <-. change (length (mem s ++ [mk_cell true Heap o])) with (length (mem s1)) in H. rewrite L1 in H. set (q := S p) in *. set (s2 := tick (new_cell Heap (OBytes []) s1)) in *.
    assert (T2 : tidy A [q; p] s2) by (rewrite <- L1; apply tidy_new; [exact T1|lia]).
    assert (Cq2 : nth_error (mem s2) q = Some (mk_cell true Heap (OBytes []))) by (unfold s2; rewrite <- L1; exact (nth_new Heap (OBytes []) s1)).
    assert (Cp2 : nth_error (mem s2) p = Some (mk_cell true Heap (OPtr None))).
    { unfold s2, tick, new_cell. cbn [mem]. rewrite nth_error_app1 by lia. exact C1. }
    assert (L2 : length (mem s2) = S q) by (change (length (mem s2)) with (length (mem s1 ++ [mk_cell true Heap (OBytes [])])); rewrite app_length, L1; cbn [length]; lia).
    assert (D : p <> q) by (unfold q; lia). assert (Lq : (p < q)%nat) by (unfold q; lia). clearbody s2 q. clear s1 T1 C1 L1 Al2.
    apply bind_inv in H as (u & s3 & H3 & H). pose proof (k_set [] _ _ _ _ _ H3) as K3. pose proof (tidy_keep A [q; p] [] _ _ K3 (fun y i => match i with end) T2) as T3. destruct K3 as (L3 & _).
    assert (C3 : nth_error (mem s3) p = Some (mk_cell true Heap (OPtr (Some q))) /\ nth_error (mem s3) q = Some (mk_cell true Heap (OBytes []))).
    { unfold set_provider_context in H3. rewrite (get_nth _ _ _ Cp2 eq_refl) in H3. cbn [content] in H3. unfold put_obj in H3. rewrite Cp2 in H3. cbn [live knd] in H3. injection H3 as _ <-. cbn [mem set_mem].
      rewrite (replace_eq _ _ _ _ _ Cp2), replace_other by exact D. now split. }
    destruct C3 as (Cp3 & Cq3). clear Cp2 Cq2 H3.
    apply bind_inv in H as (z & s4 & H4 & H). unfold provider_init, ask in H4. apply bind_inv in H4 as (w & s5 & H5 & H4). injection H5 as <- <-.
    apply bind_inv in H4 as (u' & s5 & H5 & H4). injection H4 as <- <-. pose proof (k_store [q; p] q _ (or_introl eq_refl) _ _ _ H5) as K. pose proof (tidy_keep A [q; p] [q; p] s3 s5 K (fun _ i => i) T3) as T5. destruct K as (L5 & _).
    assert (C5 : nth_error (mem s5) p = Some (mk_cell true Heap (OPtr (Some q))) /\ nth_error (mem s5) q = Some (mk_cell true Heap (OBytes (snd (p_init P a s3))))).
    { unfold store_provider in H5. destruct (get_obj s3 q) as [[]|]; try discriminate. unfold put_obj in H5. rewrite Cq3 in H5. cbn [live knd] in H5. injection H5 as _ <-. cbn [mem set_mem].
      rewrite (replace_eq _ _ _ _ _ Cq3), replace_other by congruence. now split. }
    destruct C5 as (Cp5 & Cq5). clear H5. assert (LB : left_by P a (snd (p_init P a s3))) by (left; eauto).
    destruct (fst (p_init P a s3) =? 1)%Z.
    - injection H as <- <-. cbn [snd]. split; [|lia]. exists [p; q], (snd (p_init P a s3)). split; [rewrite V; exists q; repeat split; assumption|]. split; [exact LB|]. split; [intros y [<-|[<-|[]]]; lia|].
      eapply tidy_more; [| |exact T5]; [intros y [<-|[<-|[]]]; cbn; auto|]. intros y IA [<-|[<-|[]]]; apply (proj2 (td_arrays _ _ _ T5 _ IA)); cbn; auto.
    - apply bind_inv in H as (z & s6 & H6 & H). rewrite fail_eq in H6. injection H6 as <- <-. apply bind_inv in H as (u1 & s7 & H7 & H). apply bind_inv in H as (u2 & s8 & H8 & H). apply bind_inv in H as (u3 & s9 & H9 & H). injection H as <- <-. cbn [snd].
      assert (T7 : tidy A [p] s7).
      { eapply (tidy_free A [q; p] A [p] q); [exact H7|now apply (tidy_mem _ _ s5)| |auto|auto|intros y [<-|I] Dy; [now elim Dy|exact I]|intros y I; now right].
        intros c Q. cbn in Q. rewrite Cq5 in Q. injection Q as <-. split; [reflexivity|]. right. right. cbn. eauto. }
      assert (Cp7 : nth_error (mem s7) p = Some (mk_cell true Heap (OPtr (Some q)))).
      { unfold mfree in H7. cbn in H7. rewrite Cq5 in H7. injection H7 as _ <-. cbn [mem set_mem]. rewrite replace_other by congruence. exact Cp5. }
      pose proof (tidy_keep A [p] [] _ _ (k_set [] _ _ _ _ _ H8) (fun y i => match i with end) T7) as T8.
      assert (L8 : length (mem s8) = length (mem s7)) by (apply (k_set [] _ _ _ _ _ H8)).
      assert (Cp8 : nth_error (mem s8) p = Some (mk_cell true Heap (OPtr None))).
      { unfold set_provider_context in H8. rewrite (get_nth _ _ _ Cp7 eq_refl) in H8. cbn [content] in H8. unfold put_obj in H8. rewrite Cp7 in H8. cbn [live knd] in H8. injection H8 as _ <-. cbn [mem set_mem]. now rewrite (replace_eq _ _ _ _ _ Cp7). }
      split; [|rewrite (free_length _ _ _ _ H9), L8, (free_length _ _ _ _ H7); cbn; lia].
      eapply (tidy_free A [p] A [] p); [exact H9|exact T8| |auto|auto|intros y [<-|[]] Dy; now elim Dy|intros y []].
      intros c Q. rewrite Cp8 in Q. injection Q as <-. split; [reflexivity|]. right. left. reflexivity.
  Qed.

  Lemma context_own : forall s p fp l q s1 c s2, own v s p fp l -> provider_context v p s = Done q s1 -> load_provider q s1 = Done c s2 -> s1 = s /\ s2 = s /\ c = l /\ q = inner v p fp /\ In q fp.
  Proof.
    intros s p fp l q s1 c s2 O H1 H2. destruct (own_inner _ _ _ _ _ O) as (Q & G & I). rewrite Q in H1. injection H1 as <- <-. unfold load_provider in H2. rewrite G in H2. injection H2 as <- <-. now repeat split.
  Qed.
  Lemma store_held : forall n1 A s p fp l c x s', own v s p fp l -> (forall q, In q fp -> (n1 <= q)%nat) -> tidy A fp s -> left_by P a c ->
    store_provider (inner v p fp) c s = Done x s' -> held n1 A (Some p) s' /\ length (mem s') = length (mem s).
  Proof.
    intros n1 A s p fp l c x s' O F T LB H. destruct (own_inner _ _ _ _ _ O) as (_ & G & I). pose proof (k_store fp _ _ I _ _ _ H) as K. split; [|apply K].
    rewrite (store_provider_ok _ _ _ _ G) in H. injection H as _ <-. exists fp, c. split; [eapply own_set; exact O|]. split; [exact LB|]. split; [exact F|].
    eapply tidy_keep; [exact K|auto|exact T].
  Qed.

  Lemma update_held : forall n1 A c b n e s r s', evp_update E P v a c b n e s = Done r s' -> held n1 A c s -> held n1 A c s' /\ length (mem s') = length (mem s).
  Proof.
    intros n1 A c b n e s r s' H T. unfold evp_update in H. destruct c as [p|]; [|rewrite fail_eq in H; injection H as <- <-; split; [now apply (held_mem _ _ _ s)|reflexivity]].
    destruct b as [b|]; [|rewrite fail_eq in H; injection H as <- <-; split; [now apply (held_mem _ _ _ s)|reflexivity]].
    destruct (evp_size_max E v <? n); [rewrite fail_eq in H; injection H as <- <-; split; [now apply (held_mem _ _ _ s)|reflexivity]|].
    destruct (n =? 0); [injection H as <- <-; now split|]. destruct T as (fp & l & O & LB & F & T).
    apply bind_inv in H as (q & s1 & H1 & H). apply bind_inv in H as (c & s2 & H2 & H). destruct (context_own _ _ _ _ _ _ _ _ O H1 H2) as (-> & -> & -> & -> & I).
    apply bind_inv in H as (w & s1 & H3 & H). assert (s1 = s) as -> by (unfold view in H3; destruct (get_obj s (fst b)) as [[y| |]|]; try discriminate; destruct (snd b <=? N.of_nat (length y)); [|discriminate]; now injection H3 as _ <-).
    apply bind_inv in H as (d & s1 & H4 & H). assert (s1 = s) as -> by (destruct (take n w); [now injection H4 as _ <-|discriminate]).
    apply bind_inv in H as (z & s1 & H5 & H). injection H5 as <- <-. apply bind_inv in H as (u & s1 & H6 & H).
    assert (LB' : left_by P a (snd (p_update P a s l d))) by (right; left; eauto).
    destruct (store_held n1 A _ _ _ _ _ _ _ O F T LB' H6) as (T6 & L6).
    destruct (fst (p_update P a s l d) =? 1)%Z; [injection H as <- <-; now split|]. rewrite fail_eq in H. injection H as <- <-. split; [now apply (held_mem _ _ _ s1)|exact L6].
  Qed.

  Lemma final_held : forall n1 A c h n e s r s', evp_finalize E P v a c h n e s = Done r s' -> (forall p, h = Some p -> (fst p < n1)%nat) -> held n1 A c s ->
    held n1 A c s' /\ length (mem s') = length (mem s).
  Proof.
    intros n1 A c h n e s r s' H Hh T. unfold evp_finalize in H. destruct c as [p|]; [|rewrite fail_eq in H; injection H as <- <-; split; [now apply (held_mem _ _ _ s)|reflexivity]].
    destruct h as [h|]; [|rewrite fail_eq in H; injection H as <- <-; split; [now apply (held_mem _ _ _ s)|reflexivity]].
    cbv zeta in H. destruct (match v with Legacy _ => _ | _ => _ end) as [k|] in H; [rewrite fail_eq in H; injection H as <- <-; split; [now apply (held_mem _ _ _ s)|reflexivity]|].
    destruct T as (fp & l & O & LB & F & T).
    apply bind_inv in H as (q & s1 & H1 & H). apply bind_inv in H as (c & s2 & H2 & H). destruct (context_own _ _ _ _ _ _ _ _ O H1 H2) as (-> & -> & -> & -> & I).
    apply bind_inv in H as (z & s1 & H5 & H). injection H5 as <- <-. apply bind_inv in H as (u & s1 & H6 & H).
    assert (O1 : own v s1 p fp l). { eapply own_same; [exact O|]. intros q Iq. apply (write_elsewhere _ _ _ _ _ H6). specialize (F _ Iq). specialize (Hh _ eq_refl). lia. }
    pose proof (k_write [] _ _ _ _ _ H6) as K6. pose proof (tidy_keep A fp [] _ _ K6 (fun y i => match i with end) T) as T6. destruct K6 as (L6 & _).
    apply bind_inv in H as (u' & s2 & H7 & H).
    assert (LB' : left_by P a (snd (p_final P a s l))) by (right; right; eauto).
    destruct (store_held n1 A _ _ _ _ _ _ _ O1 F T6 LB' H7) as (T7 & L7).
    destruct (fst (fst (p_final P a s l)) =? 1)%Z; [injection H as <- <-; split; [exact T7|congruence]|]. rewrite fail_eq in H. injection H as <- <-. split; [now apply (held_mem _ _ _ s2)|cbn; congruence].
  Qed.

  Lemma free_held : forall n1 A c e s r s', evp_free P v a (Some c) e s = Done r s' -> held n1 A c s -> snd r = None /\ tidy A [] s' /\ length (mem s') = length (mem s).
  Proof.
    intros n1 A c e s r s' H T. unfold evp_free in H. destruct c as [p|]; [|injection H as <- <-; split; [reflexivity|]; now split].
    destruct T as (fp & l & O & LB & F & T). apply bind_inv in H as (u & s1 & H1 & H). apply bind_inv in H as (u' & s2 & H2 & H). injection H as <- <-. split; [reflexivity|].
    assert (Alone : fp = [p] -> nth_error (mem s) p = Some (mk_cell true Heap (OBytes l)) -> mem s1 = mem s -> tidy A [] s2 /\ length (mem s2) = length (mem s)).
    { intros -> C M. split; [|rewrite (free_length _ _ _ _ H2); now rewrite M]. eapply (tidy_free A [p] A [] p); [exact H2|now apply (tidy_mem _ _ s)| |auto|auto|intros y [<-|[]] D; now elim D|intros y []].
      intros x Q. rewrite M, C in Q. injection Q as <-. split; [reflexivity|]. right. right. cbn. eauto. }
    unfold own in O. destruct v as [b| |] eqn:V.
    - destruct O as (-> & C). injection H1 as _ <-. now apply Alone.
    - destruct O as (-> & C). apply Alone; try assumption; [reflexivity|]. apply bind_inv in H1 as (z & s3 & H3 & H1). injection H3 as <- <-. destruct (p_cleanup P a s =? 1)%Z; now injection H1 as _ <-.
    - clear Alone. destruct O as (q & -> & D & Cp & Cq). apply bind_inv in H1 as (q' & s3 & H3 & H1). cbn [provider_context] in H3. rewrite (get_nth _ _ _ Cp eq_refl) in H3. cbn [content] in H3. injection H3 as <- <-.
      apply bind_inv in H1 as (u1 & s4 & H4 & H5).
      assert (T4 : tidy A [p] s4).
      { eapply (tidy_free A [p; q] A [p] q); [exact H4|exact T| |auto|auto|intros y [<-|[<-|[]]] Dy; [now left|now elim Dy]|intros y [<-|[]]; now left].
        intros c Q. rewrite Cq in Q. injection Q as <-. split; [reflexivity|]. right. right. cbn. eauto. }
      assert (Cp4 : nth_error (mem s4) p = Some (mk_cell true Heap (OPtr (Some q)))).
      { unfold mfree in H4. rewrite Cq in H4. injection H4 as _ <-. cbn [mem set_mem]. rewrite replace_other by congruence. exact Cp. }
      pose proof (tidy_keep A [p] [] _ _ (k_set [] _ _ _ _ _ H5) (fun y i => match i with end) T4) as T5.
      assert (L5 : length (mem s1) = length (mem s4)) by (apply (k_set [] _ _ _ _ _ H5)).
      assert (Cp5 : nth_error (mem s1) p = Some (mk_cell true Heap (OPtr None))).
      { unfold set_provider_context in H5. rewrite (get_nth _ _ _ Cp4 eq_refl) in H5. cbn [content] in H5. unfold put_obj in H5. rewrite Cp4 in H5. cbn [live knd] in H5. injection H5 as _ <-. cbn [mem set_mem]. now rewrite (replace_eq _ _ _ _ _ Cp4). }
      split; [|rewrite (free_length _ _ _ _ H2), L5; exact (free_length _ _ _ _ H4)].
      eapply (tidy_free A [p] A [] p); [exact H2|exact T5| |auto|auto|intros y [<-|[]] Dy; now elim Dy|intros y []].
      intros c Q. rewrite Cp5 in Q. injection Q as <-. split; [reflexivity|]. right. left. reflexivity.
  Qed.

  (* -------------------------------------------------------- the functions above *)

  Definition after {B} (n1 : nat) (A : list nat) (bad : option nat -> M B) (good : M B) (r : B) (s' : state) : Prop :=
    (exists c s1, bad c s1 = Done r s' /\ held n1 A c s1 /\ (n1 <= length (mem s1))%nat) \/
    (exists s1, good s1 = Done r s' /\ tidy A [] s1 /\ (n1 <= length (mem s1))%nat).

  Lemma session1_held : forall B A b n h hn e (bad : option nat -> M B) good s r s', session1 (evp E P v a) b n h hn e bad good s = Done r s' ->
    tidy A [] s -> (n0 <= length (mem s))%nat -> (forall p, h = Some p -> (fst p < length (mem s))%nat) -> after (length (mem s)) A bad good r s'.
  Proof.
    intros B A b n h hn e bad good s r s' H T L Hh. unfold session1 in H. cbn [evp f_initialize f_update f_finalize f_free] in H. set (n1 := length (mem s)) in *.
    apply bind_inv in H as (c & s1 & H1 & H). destruct (init_held _ _ _ _ _ H1 T L) as (T1 & L1). fold n1 in T1, L1.
    destruct (negb (fst c =? 1)%Z). { apply bind_inv in H as (u & s2 & H2 & H). injection H2 as <- <-. left. do 2 eexists. split; [exact H|]. split; [now apply (held_mem _ _ _ s1)|exact L1]. }
    apply bind_inv in H as (q & s2 & H2 & H). destruct (update_held _ _ _ _ _ _ _ _ _ H2 T1) as (T2 & L2).
    destruct (negb (q =? 1)%Z). { apply bind_inv in H as (u & s3 & H3 & H). injection H3 as <- <-. left. do 2 eexists. split; [exact H|]. split; [now apply (held_mem _ _ _ s2)|cbn; lia]. }
    apply bind_inv in H as (q' & s3 & H3 & H). destruct (final_held _ _ _ _ _ _ _ _ _ H3 Hh T2) as (T3 & L3).
    destruct (negb (q' =? 1)%Z). { apply bind_inv in H as (u & s4 & H4 & H). injection H4 as <- <-. left. do 2 eexists. split; [exact H|]. split; [now apply (held_mem _ _ _ s3)|cbn; lia]. }
    apply bind_inv in H as (c' & s4 & H4 & H). destruct (free_held _ _ _ _ _ _ _ H4 T3) as (N4 & T4 & L4).
    destruct (negb (fst c' =? 1)%Z). { apply bind_inv in H as (u & s5 & H5 & H). injection H5 as <- <-. left. do 2 eexists. split; [exact H|]. rewrite N4. split; [now apply (tidy_mem _ _ s4)|cbn; lia]. }
    right. exists s4. split; [exact H|]. split; [exact T4|lia].
  Qed.
  Lemma session2_held : forall B A b' n' b n h hn e (bad : option nat -> M B) good s r s', session2 (evp E P v a) b' n' b n h hn e bad good s = Done r s' ->
    tidy A [] s -> (n0 <= length (mem s))%nat -> (forall p, h = Some p -> (fst p < length (mem s))%nat) -> after (length (mem s)) A bad good r s'.
  Proof.
    intros B A b' n' b n h hn e bad good s r s' H T L Hh. unfold session2 in H. cbn [evp f_initialize f_update f_finalize f_free] in H. set (n1 := length (mem s)) in *.
    apply bind_inv in H as (c & s1 & H1 & H). destruct (init_held _ _ _ _ _ H1 T L) as (T1 & L1). fold n1 in T1, L1.
    destruct (negb (fst c =? 1)%Z). { apply bind_inv in H as (u & s2 & H2 & H). injection H2 as <- <-. left. do 2 eexists. split; [exact H|]. split; [now apply (held_mem _ _ _ s1)|exact L1]. }
    apply bind_inv in H as (q0 & s0 & H0 & H). destruct (update_held _ _ _ _ _ _ _ _ _ H0 T1) as (T0 & L0).
    destruct (negb (q0 =? 1)%Z). { apply bind_inv in H as (u & s3 & H3 & H). injection H3 as <- <-. left. do 2 eexists. split; [exact H|]. split; [now apply (held_mem _ _ _ s0)|cbn; lia]. }
    apply bind_inv in H as (q & s2 & H2 & H). destruct (update_held _ _ _ _ _ _ _ _ _ H2 T0) as (T2 & L2).
    destruct (negb (q =? 1)%Z). { apply bind_inv in H as (u & s3 & H3 & H). injection H3 as <- <-. left. do 2 eexists. split; [exact H|]. split; [now apply (held_mem _ _ _ s2)|cbn; lia]. }
    apply bind_inv in H as (q' & s3 & H3 & H). destruct (final_held _ _ _ _ _ _ _ _ _ H3 Hh T2) as (T3 & L3).
    destruct (negb (q' =? 1)%Z). { apply bind_inv in H as (u & s4 & H4 & H). injection H4 as <- <-. left. do 2 eexists. split; [exact H|]. split; [now apply (held_mem _ _ _ s3)|cbn; lia]. }
    apply bind_inv in H as (c' & s4 & H4 & H). destruct (free_held _ _ _ _ _ _ _ H4 T3) as (N4 & T4 & L4).
    destruct (negb (fst c' =? 1)%Z). { apply bind_inv in H as (u & s5 & H5 & H). injection H5 as <- <-. left. do 2 eexists. split; [exact H|]. rewrite N4. split; [now apply (tidy_mem _ _ s4)|cbn; lia]. }
    right. exists s4. split; [exact H|]. split; [exact T4|lia].
  Qed.

  Lemma calculate_tidy : forall b n h hn e s r s', calculate_with (evp E P v a) a b n h hn e s = Done r s' -> tidy [] [] s -> (n0 <= length (mem s))%nat ->
    (forall p, h = Some p -> (fst p < length (mem s))%nat) -> tidy [] [] s'.
  Proof.
    intros b n h hn e s r s' H T L Hh.
    destruct (session1_held Z [] b n h hn e (calculate_on_error_with (evp E P v a)) (ret 1%Z) s r s' H T L Hh) as [(c & s1 & B & T1 & _)|(s1 & G & T1 & _)]; [|now injection G as _ <-].
    destruct c as [p|]; cbn [calculate_on_error_with] in B; [|now injection B as _ <-]. apply bind_inv in B as (w & s2 & B1 & B). injection B as _ <-. exact (proj1 (proj2 (free_held _ _ _ _ _ _ _ B1 T1))).
  Qed.

  Definition of (p : option nat) : list nat := match p with Some q => [q] | None => [] end.
  Lemma clear_tidy : forall A X p s x s', clear_and_free a p s = Done x s' -> tidy (of p ++ A) X s -> tidy A X s'.
  Proof.
    intros A X [q|] s x s' H T; cbn [of app] in T; cbn [clear_and_free] in H; [|now injection H as _ <-]. rewrite <- block_is in H. apply bind_inv in H as (u & s1 & H1 & H). exact (tidy_clear _ _ _ _ _ _ _ _ H1 H T).
  Qed.
  Lemma give_up_tidy : forall n1 c p1 p2 p3 s x s', hmac_on_error_with (evp E P v a) a c p1 p2 p3 s = Done x s' -> held n1 (of p1 ++ of p2 ++ of p3) c s -> tidy [] [] s'.
  Proof.
    intros n1 c p1 p2 p3 s x s' H T. unfold hmac_on_error_with in H. apply bind_inv in H as (u & s1 & H1 & H). set (A := of p1 ++ of p2 ++ of p3) in *.
    assert (T1 : tidy A [] s1).
    { destruct c as [p|]; [|now injection H1 as _ <-]. apply bind_inv in H1 as (w & s2 & H2 & H1). injection H1 as _ <-. exact (proj1 (proj2 (free_held _ _ _ _ _ _ _ H2 T))). }
    apply bind_inv in H as (u1 & s2 & H2 & H). apply bind_inv in H as (u2 & s3 & H3 & H). apply bind_inv in H as (u3 & s4 & H4 & H). injection H as _ <-.
    eapply (clear_tidy [] [] p3); [exact H4|]. rewrite app_nil_r. eapply clear_tidy; [exact H3|]. eapply clear_tidy; [exact H2|]. exact T1.
  Qed.

  Lemma key_held : forall A kh kd k kn e s r s', hmac_key_data_with (evp E P v a) a kh kd k kn e s = Done r s' -> tidy A [] s -> (n0 <= length (mem s))%nat -> (kh < length (mem s))%nat ->
    match r with Some c => held (length (mem s)) A c s' | None => tidy A [] s' end /\ (length (mem s) <= length (mem s'))%nat.
  Proof.
    intros A kh kd k kn e s r s' H T L Hk. unfold hmac_key_data_with in H. rewrite <- block_is in H. cbv zeta in H. destruct (kn <=? block_size a).
    - apply bind_inv in H as (u & s1 & H1 & H). apply bind_inv in H as (u' & s2 & H2 & H). injection H as <- <-.
      pose proof (keep_trans [] _ _ _ (k_mcopy [] _ _ _ _ _ _ H1) (k_write [] _ _ _ _ _ H2)) as K. split; [eapply (tidy_keep A [] []); [exact K|auto|exact T]|]. now rewrite (proj1 K).
    - destruct (session1_held _ A (Some k) kn (Some (kh, 0)) _ e (fun c => ret (Some c)) _ s r s' H T L) as [(c & s1 & B & T1 & L1)|(s1 & G & T1 & L1)]; [intros p [= <-]; exact Hk| |].
      + injection B as <- <-. now split.
      + apply bind_inv in G as (u & s2 & H2 & G). apply bind_inv in G as (u' & s3 & H3 & G). injection G as <- <-.
        assert (K2 : keep [] s1 s2) by (destruct (_ <? _) in H2; [exact (k_write [] _ _ _ _ _ H2)|injection H2 as _ <-; now apply keep_refl]).
        pose proof (keep_trans [] _ _ _ K2 (k_mcopy [] _ _ _ _ _ _ H3)) as K. split; [eapply (tidy_keep A [] []); [exact K|auto|exact T1]|]. now rewrite (proj1 K).
  Qed.
  Lemma pass_held : forall A pad b n h hn e s r s', hmac_pass_with (evp E P v a) a pad b n h hn e s = Done r s' -> tidy A [] s -> (n0 <= length (mem s))%nat ->
    (forall p, h = Some p -> (fst p < length (mem s))%nat) -> match r with Some c => held (length (mem s)) A c s' | None => tidy A [] s' end /\ (length (mem s) <= length (mem s'))%nat.
  Proof.
    intros A pad b n h hn e s r s' H T L Hh. unfold hmac_pass_with in H. cbv zeta in H.
    destruct (session2_held _ A (Some (pad, 0)) _ b n h hn e (fun c => ret (Some c)) (ret None) s r s' H T L Hh) as [(c & s1 & B & T1 & L1)|(s1 & G & T1 & L1)]; [injection B as <- <-|injection G as <- <-]; now split.
  Qed.
  Lemma bytes_tidy : forall A n s x s', allocate_bytes E (block_size a) s = Done x s' -> n = length (mem s) -> tidy A [] s -> (n0 <= n)%nat ->
    tidy (of x ++ A) [] s' /\ (n <= length (mem s'))%nat.
  Proof.
    intros A n s x s' H -> T L. unfold allocate_bytes in H. destruct (alloc_ok E (tries s)) eqn:Al.
    - rewrite allocate_ok in H by exact Al. injection H as <- <-. split; [|cbn; rewrite app_length; lia]. cbn [of app]. apply tidy_array; [exact T|exact L|intros q []|].
      eexists. split; [reflexivity|]. unfold junk_bytes. now rewrite map_length, seq_length.
    - rewrite allocate_no in H by exact Al. injection H as <- <-. split; [now apply (tidy_mem _ _ s)|cbn; lia].
  Qed.

  Lemma hmac_body_tidy : forall kh k kn b n h hn e s r s', calculate_hmac_body_with E (evp E P v a) a kh k kn b n h hn e s = Done r s' ->
    tidy [] [] s -> (n0 <= length (mem s))%nat -> (kh < length (mem s))%nat -> (forall p, h = Some p -> (fst p < length (mem s))%nat) -> tidy [] [] s'.
  Proof.
    intros kh k kn b n h hn e s r s' H T L Hk Hh. unfold calculate_hmac_body_with in H. cbv zeta in H. rewrite <- block_is in H.
    destruct k as [k|]; [|rewrite fail_eq in H; injection H as <- <-; now apply (tidy_mem _ _ s)].
    destruct (ssize_max E <? kn); [rewrite fail_eq in H; injection H as <- <-; now apply (tidy_mem _ _ s)|].
    destruct (hn <? _) in H; [rewrite fail_eq in H; injection H as <- <-; now apply (tidy_mem _ _ s)|].
    apply bind_inv in H as (kd & s1 & H1 & H). destruct (bytes_tidy _ _ _ _ _ H1 eq_refl T L) as (T1 & L1). cbn [app] in T1.
    destruct kd as [kd|]; [|apply bind_inv in H as (u & s2 & H2 & H); injection H2 as _ <-; eapply (give_up_tidy 0); [exact H|]; now apply (tidy_mem _ _ s1)].
    apply bind_inv in H as (rk & s2 & H2 & H). assert (Lh1 : forall p, h = Some p -> (fst p < length (mem s1))%nat) by (intros p Q; specialize (Hh p Q); lia).
    destruct (key_held _ _ _ _ _ _ _ _ _ H2 T1) as (T2 & L2); [lia|lia|]. destruct rk as [c|]; [eapply give_up_tidy; [exact H|]; cbn [of app] in *; exact T2|].
    apply bind_inv in H as (ip & s3 & H3 & H). destruct (bytes_tidy _ _ _ _ _ H3 eq_refl T2) as (T3 & L3); [lia|].
    destruct ip as [ip|]; [|apply bind_inv in H as (u & s4 & H4 & H); injection H4 as _ <-; eapply (give_up_tidy 0); [exact H|]; now apply (tidy_mem _ _ s3)].
    apply bind_inv in H as (u4 & s4 & H4 & H). pose proof (k_write [] _ _ _ _ _ H4) as K4. pose proof (tidy_keep _ _ [] _ _ K4 (fun y i => match i with end) T3) as T4. destruct K4 as (L4 & _).
    apply bind_inv in H as (op & s5 & H5 & H). destruct (bytes_tidy _ _ _ _ _ H5 eq_refl T4) as (T5 & L5); [lia|].
    destruct op as [op|]; [|apply bind_inv in H as (u & s6 & H6 & H); injection H6 as _ <-; eapply (give_up_tidy 0); [exact H|]; now apply (tidy_mem _ _ s5)].
    apply bind_inv in H as (u6 & s6 & H6 & H). pose proof (k_write [] _ _ _ _ _ H6) as K6. pose proof (tidy_keep _ _ [] _ _ K6 (fun y i => match i with end) T5) as T6. destruct K6 as (L6 & _).
    apply bind_inv in H as (u7 & s7 & H7 & H). pose proof (k_xor [] _ _ _ _ _ _ _ H7) as K7. pose proof (tidy_keep _ _ [] _ _ K7 (fun y i => match i with end) T6) as T7. destruct K7 as (L7 & _).
    apply bind_inv in H as (ri & s8 & H8 & H). destruct (pass_held _ _ _ _ _ _ _ _ _ _ H8 T7) as (T8 & L8); [lia|intros p Q; specialize (Lh1 p Q); lia|].
    destruct ri as [c|]; [eapply give_up_tidy; [exact H|exact T8]|].
    apply bind_inv in H as (ro & s9 & H9 & H). destruct (pass_held _ _ _ _ _ _ _ _ _ _ H9 T8) as (T9 & L9); [lia|intros p Q; specialize (Lh1 p Q); lia|].
    destruct ro as [c|]; [eapply give_up_tidy; [exact H|exact T9]|]. cbn [of app] in T9.
    apply bind_inv in H as (w1 & t1 & W1 & H). apply bind_inv in H as (w2 & t2 & W2 & H). pose proof (tidy_clear _ _ _ _ _ _ _ _ W1 W2 T9) as U2.
    apply bind_inv in H as (w3 & t3 & W3 & H). apply bind_inv in H as (w4 & t4 & W4 & H). pose proof (tidy_clear _ _ _ _ _ _ _ _ W3 W4 U2) as U4.
    apply bind_inv in H as (w5 & t5 & W5 & H). apply bind_inv in H as (w6 & t6 & W6 & H). pose proof (tidy_clear _ _ _ _ _ _ _ _ W5 W6 U4) as U6. now injection H as _ <-.
  Qed.
  Lemma hmac_tidy : forall k kn b n h hn e s r s', calculate_hmac_with E (evp E P v a) a k kn b n h hn e s = Done r s' ->
    tidy [] [] s -> (n0 <= length (mem s))%nat -> (forall p, h = Some p -> (fst p < length (mem s))%nat) -> tidy [] [] s'.
  Proof.
    intros k kn b n h hn e s r s' H T L Hh. unfold calculate_hmac_with in H. apply bind_inv in H as (kh & s1 & H1 & H). apply bind_inv in H as (r0 & s2 & H2 & H). apply bind_inv in H as (u & s3 & H3 & H). injection H as _ <-.
    injection H1 as <- <-. set (c := mk_cell true Stack _) in *.
    assert (T2 : tidy [] [] s2).
    { eapply hmac_body_tidy; [exact H2| | | |].
      - split; [|intros q []]. intros q x Q X K. cbn [mem set_mem] in X. destruct (Nat.lt_ge_cases q (length (mem s))) as [Lt|Ge].
        + rewrite nth_error_app1 in X by exact Lt. exact (td_cells _ _ _ T q x Q X K).
        + rewrite nth_error_app2 in X by exact Ge. destruct (q - length (mem s))%nat as [|[|j]]; cbn in X; try discriminate. injection X as <-. discriminate.
      - cbn [mem set_mem]. rewrite app_length. lia.
      - cbn [mem set_mem]. rewrite app_length. cbn. lia.
      - intros p Q. cbn [mem set_mem]. rewrite app_length. specialize (Hh p Q). lia. }
    unfold pop_local in H3. destruct (nth_error (mem s2) (length (mem s))) as [[[] [] o]|] eqn:Q; try discriminate. injection H3 as _ <-. split; [|intros q []].
    intros q x N X K. cbn [mem set_mem] in X. destruct (Nat.eq_dec q (length (mem s))) as [->|D].
    - rewrite (replace_eq _ _ _ _ _ Q) in X. injection X as <-. discriminate.
    - rewrite replace_other in X by congruence. exact (td_cells _ _ _ T2 q x N X K).
  Qed.
End Memory.

Lemma tidy_start : forall P a s, tidy P a (length (mem s)) [] [] s.
Proof. intros P a s. split; [|intros q []]. intros q c L Q. assert (q < length (mem s))%nat by (apply nth_error_Some; congruence). lia. Qed.

Lemma calculate_cleared : forall E P v a b n h hn e s r s', calculate_with (evp E P v a) a b n h hn e s = Done r s' -> (forall p, h = Some p -> (fst p < length (mem s))%nat) ->
  forall q c, (length (mem s) <= q)%nat -> nth_error (mem s') q = Some c -> knd c = Heap -> cleared P a c.
Proof.
  intros E P v a b n h hn e s r s' H Hh q c L Q K. assert (T : tidy P a (length (mem s)) [] [] s') by (eapply calculate_tidy; [exact H|apply tidy_start|lia|exact Hh]).
  destruct (td_cells _ _ _ _ _ _ T q c L Q K) as [([] & _)|[[]|C]]. exact C.
Qed.
Lemma hmac_cleared : forall E P v a k kn b n h hn e s r s', calculate_hmac_with E (evp E P v a) a k kn b n h hn e s = Done r s' -> (forall p, h = Some p -> (fst p < length (mem s))%nat) ->
  forall q c, (length (mem s) <= q)%nat -> nth_error (mem s') q = Some c -> knd c = Heap -> cleared P a c.
Proof.
  intros E P v a k kn b n h hn e s r s' H Hh q c L Q K. assert (T : tidy P a (length (mem s)) [] [] s') by (eapply hmac_tidy; [exact H|apply tidy_start|lia|exact Hh]).
  destruct (td_cells _ _ _ _ _ _ T q c L Q K) as [([] & _)|[[]|C]]. exact C.
Qed.
