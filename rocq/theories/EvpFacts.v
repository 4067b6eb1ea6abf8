(* Proofs about builds on a message digest provider. *)
From Coq Require Import Arith NArith ZArith List Lia Bool.
From Verif Require Import Words Spec Tables Transform Machine Vocab Context Hash WordFacts TransformFacts MachineFacts ContextFacts HashFacts ReprFacts HmacFacts LibProofs Evp EvpVocab.
Import ListNotations.
Open Scope N_scope.
Arguments N.mul : simpl never.
Arguments N.add : simpl never.
Arguments N.sub : simpl never.
Arguments N.pow : simpl never.
Arguments N.to_nat : simpl never.
Arguments N.of_nat : simpl never.
Arguments alg_of : simpl never.
Arguments hmac_block_size : simpl never.
Arguments spec_hash : simpl never.

(* ------------------------------------------------ libhmac_X.c does not depend on the build *)

Lemma calculate_fallback : forall E a, calculate_with (fallback E a) a = calculate E a.
Proof. reflexivity. Qed.
Lemma calculate_hmac_fallback : forall E a, calculate_hmac_with E (fallback E a) a = calculate_hmac E a.
Proof. reflexivity. Qed.

(* ------------------------------------------------ steps *)

Record step (e : bool) (W : list nat) (s s' : state) : Prop := {
  st_good : good_state s';
  st_same : forall q, ~ In q W -> (q < length (mem s))%nat -> nth_error (mem s') q = nth_error (mem s) q;
  st_len : (length (mem s) <= length (mem s'))%nat;
  st_tries : (tries s <= tries s')%nat;
  st_errs : exists ks, errs s' = errs s ++ ks /\ (e = false -> ks = []);
}.
Definition newlive (s s' : state) (L : list nat) : Prop :=
  forall q c, (length (mem s) <= q)%nat -> nth_error (mem s') q = Some c -> live c = true -> In q L.

Lemma step_refl : forall e W s, good_state s -> step e W s s.
Proof. intros e W s G. constructor; try assumption; try lia; try reflexivity. exists []. now rewrite app_nil_r. Qed.
Lemma step_trans : forall e W W' s s' s'', step e W s s' -> step e W' s' s'' ->
  (forall q, In q W' -> (q < length (mem s))%nat -> In q W) -> step e W s s''.
Proof.
  intros e W W' s s' s'' [G1 S1 L1 T1 (k1 & K1 & N1)] [G2 S2 L2 T2 (k2 & K2 & N2)] H. constructor; try assumption; try lia.
  - intros q Q L. rewrite S2; [now apply S1| |lia]. intros Q'. apply Q. now apply H.
  - exists (k1 ++ k2). split; [now rewrite K2, K1, app_assoc|]. intros X. now rewrite N1, N2.
Qed.
Lemma step_weaken : forall e W W' s s', step e W s s' -> (forall q, In q W -> (q < length (mem s))%nat -> In q W') -> step e W' s s'.
Proof. intros e W W' s s' [G1 S1 L1 T1 K1] H. constructor; try assumption. intros q Q L. apply S1; [|exact L]. intros X. apply Q. now apply H. Qed.
Lemma step_quiet : forall e W s s', step false W s s' -> step e W s s'.
Proof. intros e W s s' [G1 S1 L1 T1 (k & K & N)]. constructor; try assumption. exists k. split; [exact K|]. intros _. now apply N. Qed.
Lemma newlive_refl : forall s L, newlive s s L.
Proof. intros s L q c H Q. exfalso. assert (q < length (mem s))%nat by (apply nth_error_Some; congruence). lia. Qed.
Lemma newlive_trans : forall e W s s' s'' L L', newlive s s' L -> step e W s' s'' -> newlive s' s'' L' ->
  (forall q, In q L -> ~ In q W -> In q L') ->
  (forall q c, In q W -> (length (mem s) <= q < length (mem s'))%nat -> nth_error (mem s'') q = Some c -> live c = true -> In q L') ->
  newlive s s'' L'.
Proof.
  intros e W s s' s'' L L' N1 S N2 H H' q c Q X Lv. destruct (Nat.lt_ge_cases q (length (mem s'))) as [Hq|Hq]; [|now apply (N2 q c)].
  destruct (in_dec Nat.eq_dec q W) as [HW|HW]; [now apply (H' q c)|]. apply H; [|exact HW]. apply (N1 q c); try assumption. rewrite <- (st_same _ _ _ _ S); assumption.
Qed.
Lemma added_l : forall e W s s' s'', errors_added e s s' -> step e W s' s'' -> errors_added e s s''.
Proof.
  intros e W s s' s'' A S. destruct (st_errs _ _ _ _ S) as (ks & K & N). unfold errors_added in *. destruct e.
  - destruct A as (k & k' & A). exists k, (k' ++ ks). now rewrite K, A, <- app_assoc.
  - now rewrite K, N, app_nil_r.
Qed.
Lemma added_r : forall e W s s' s'', step e W s s' -> errors_added e s' s'' -> errors_added e s s''.
Proof.
  intros e W s s' s'' S A. destruct (st_errs _ _ _ _ S) as (ks & K & N). unfold errors_added in *. destruct e.
  - destruct A as (k & k' & A). destruct ks as [|k0 ks].
    + exists k, k'. rewrite A, K, app_nil_r. reflexivity.
    + exists k0, (ks ++ k :: k'). rewrite A, K, <- app_assoc. reflexivity.
  - now rewrite A, K, N, app_nil_r.
Qed.
Lemma added_one : forall e k s, errors_added e s (add_err e k s).
Proof. intros e k s. unfold errors_added. destruct e; [exists k, []|]; reflexivity. Qed.
Lemma add_err_good : forall e k s, good_state s -> good_state (add_err e k s).
Proof. intros e k s G. exact G. Qed.
Lemma step_err : forall e k W s, good_state s -> step e W s (add_err e k s).
Proof. intros e k W s G. constructor; try assumption; try reflexivity. exists (if e then [k] else []). split; [destruct e; [reflexivity|cbn; now rewrite app_nil_r]|]. now intros ->. Qed.
Lemma newlive_err : forall e k s L, newlive s (add_err e k s) L.
Proof. intros e k s L. exact (newlive_refl s L). Qed.

(* steps of the machine *)
Lemma good_set : forall s p o, good_state s -> good_obj o -> good_state (set_obj p o s).
Proof.
  intros s p o G O q x H. destruct (Nat.eq_dec p q) as [<-|D].
  - destruct (get_obj s p) as [o'|] eqn:Q; [rewrite (get_set_same _ _ _ _ Q) in H; now injection H as <-|].
    exfalso. unfold get_obj, set_obj in *. destruct (nth_error (mem s) p) as [c|] eqn:N; [|rewrite N in H; discriminate]. cbn [mem set_mem] in H.
    rewrite replace_same in H by (apply nth_error_Some; congruence). cbn in H. destruct (live c); discriminate.
  - rewrite get_set_other in H by exact D. now apply (G q).
Qed.
Lemma set_nth_other : forall s p o q, p <> q -> nth_error (mem (set_obj p o s)) q = nth_error (mem s) q.
Proof. intros s p o q D. unfold set_obj. destruct (nth_error (mem s) p); [cbn [mem set_mem]; now apply replace_other|reflexivity]. Qed.
Lemma set_nth_same : forall s p o c, nth_error (mem s) p = Some c -> nth_error (mem (set_obj p o s)) p = Some (mk_cell (live c) (knd c) o).
Proof. intros s p o c H. unfold set_obj. rewrite H. cbn [mem set_mem]. apply replace_same. apply nth_error_Some. congruence. Qed.
Lemma step_set : forall e s p o, good_state s -> good_obj o -> step e [p] s (set_obj p o s).
Proof.
  intros e s p o G O. constructor.
  - now apply good_set.
  - intros q Q _. apply set_nth_other. intros ->. apply Q. now left.
  - rewrite set_obj_length. lia.
  - rewrite set_obj_tries. lia.
  - exists []. rewrite set_obj_errs, app_nil_r. now split.
Qed.
Lemma newlive_set : forall s p o L, newlive s (set_obj p o s) L.
Proof. intros s p o L q c H Q. exfalso. assert (q < length (mem (set_obj p o s)))%nat by (apply nth_error_Some; congruence). rewrite set_obj_length in *. lia. Qed.

Lemma good_new : forall k o s, good_state s -> good_obj o -> good_state (new_cell k o s).
Proof.
  intros k o s G O q x H. destruct (Nat.lt_ge_cases q (length (mem s))) as [L|L].
  - rewrite get_new_old in H by exact L. now apply (G q).
  - assert (q = length (mem s)).
    { apply get_obj_lt in H. unfold new_cell in H. cbn [mem] in H. rewrite app_length in H. cbn in H. lia. }
    subst q. rewrite get_new in H. now injection H as <-.
Qed.
Lemma step_new : forall e W k o s, good_state s -> good_obj o -> step e W s (new_cell k o s).
Proof.
  intros e W k o s G O. constructor.
  - now apply good_new.
  - intros q _ L. unfold new_cell. cbn [mem]. now rewrite nth_error_app1.
  - unfold new_cell. cbn [mem]. rewrite app_length. lia.
  - reflexivity.
  - exists []. now rewrite app_nil_r.
Qed.
Lemma newlive_new : forall k o s, newlive s (new_cell k o s) [length (mem s)].
Proof.
  intros k o s q c H Q _. left. assert (q < length (mem (new_cell k o s)))%nat by (apply nth_error_Some; congruence).
  unfold new_cell in *. cbn [mem] in *. rewrite app_length in *. cbn in *. lia.
Qed.
Lemma nth_new : forall k o s, nth_error (mem (new_cell k o s)) (length (mem s)) = Some (mk_cell true k o).
Proof. intros. unfold new_cell. cbn [mem]. now rewrite nth_error_app2, Nat.sub_diag by lia. Qed.
Lemma step_tick : forall e W s, good_state s -> step e W s (tick s).
Proof. intros e W s G. constructor; try assumption; try reflexivity; try (cbn; lia). exists []. now rewrite app_nil_r. Qed.

Lemma mfree_ok : forall s p o, nth_error (mem s) p = Some (mk_cell true Heap o) -> mfree p s = Done tt (kill p s).
Proof. intros s p o H. unfold mfree, kill. rewrite H. reflexivity. Qed.
Lemma kill_nth_other : forall s p q, p <> q -> nth_error (mem (kill p s)) q = nth_error (mem s) q.
Proof. intros s p q D. unfold kill. destruct (nth_error (mem s) p); [cbn [mem set_mem]; now apply replace_other|reflexivity]. Qed.
Lemma kill_nth_same : forall s p c, nth_error (mem s) p = Some c -> nth_error (mem (kill p s)) p = Some (mk_cell false (knd c) (content c)).
Proof. intros s p c H. unfold kill. rewrite H. cbn [mem set_mem]. apply replace_same. apply nth_error_Some. congruence. Qed.
Lemma kill_length : forall s p, length (mem (kill p s)) = length (mem s).
Proof. intros s p. unfold kill. destruct (nth_error (mem s) p); [cbn [mem set_mem]; apply replace_length|reflexivity]. Qed.
Lemma kill_tries : forall s p, tries (kill p s) = tries s.
Proof. intros s p. unfold kill. now destruct (nth_error (mem s) p). Qed.
Lemma kill_errs : forall s p, errs (kill p s) = errs s.
Proof. intros s p. unfold kill. now destruct (nth_error (mem s) p). Qed.
Lemma step_kill : forall e s p, good_state s -> step e [p] s (kill p s).
Proof.
  intros e s p G. constructor.
  - intros q o H. destruct (Nat.eq_dec p q) as [<-|D].
    + unfold get_obj, kill in *. destruct (nth_error (mem s) p) as [c|] eqn:N; [|rewrite N in H; discriminate]. cbn [mem set_mem] in H.
      rewrite replace_same in H by (apply nth_error_Some; congruence). discriminate.
    + unfold get_obj in H. rewrite kill_nth_other in H by exact D. now apply (G q).
  - intros q Q _. apply kill_nth_other. intros ->. apply Q. now left.
  - rewrite kill_length. lia.
  - unfold kill. now destruct (nth_error _ _).
  - exists []. rewrite app_nil_r. split; [|reflexivity]. unfold kill. now destruct (nth_error _ _).
Qed.
Lemma newlive_kill : forall s p L, newlive s (kill p s) L.
Proof. intros s p L q c H Q. exfalso. assert (q < length (mem (kill p s)))%nat by (apply nth_error_Some; congruence). rewrite kill_length in *. lia. Qed.

Lemma get_nth : forall s p c, nth_error (mem s) p = Some c -> live c = true -> get_obj s p = Some (content c).
Proof. intros s p c H L. unfold get_obj. now rewrite H, L. Qed.
Lemma get_same : forall s s' p, nth_error (mem s') p = nth_error (mem s) p -> get_obj s' p = get_obj s p.
Proof. intros s s' p H. unfold get_obj. now rewrite H. Qed.
Lemma accessible_same : forall s s' p n, nth_error (mem s') (fst p) = nth_error (mem s) (fst p) -> accessible s p n -> accessible s' p n.
Proof. intros s s' p n H (l & G & L). exists l. rewrite (get_same _ _ _ H). now split. Qed.
Lemma bytes_same : forall s s' p n, nth_error (mem s') (fst p) = nth_error (mem s) (fst p) -> bytes_at s' p n = bytes_at s p n.
Proof. intros s s' p n H. unfold bytes_at. now rewrite (get_same _ _ _ H). Qed.
Lemma accessible_lt : forall s p n, accessible s p n -> (fst p < length (mem s))%nat.
Proof. intros s p n (l & G & _). now apply get_obj_lt in G. Qed.
Lemma bytes_bytes : forall s p n, good_state s -> Forall is_byte (bytes_at s p n).
Proof.
  intros s p n G. unfold bytes_at. destruct (get_obj s (fst p)) as [[l|a c|q]|] eqn:Q; try constructor. apply Forall_firstn, Forall_skipn. exact (G _ _ Q).
Qed.

(* ------------------------------------------------ the functions of the provider builds *)

Definition own (v : variant) (s : state) (p : nat) (fp : list nat) (c : list N) : Prop :=
  match v with
  | Outside => exists q, fp = [p; q] /\ p <> q /\ nth_error (mem s) p = Some (mk_cell true Heap (OPtr (Some q))) /\
                 nth_error (mem s) q = Some (mk_cell true Heap (OBytes c))
  | _ => fp = [p] /\ nth_error (mem s) p = Some (mk_cell true Heap (OBytes c))
  end.

Lemma own_same : forall v s s' p fp c, own v s p fp c -> (forall q, In q fp -> nth_error (mem s') q = nth_error (mem s) q) -> own v s' p fp c.
Proof.
  intros v s s' p fp c O H. destruct v; cbn in *; try (destruct O as (-> & O); split; [reflexivity|]; rewrite H by (now left); exact O).
  destruct O as (q & -> & D & A & B). exists q. split; [reflexivity|]. split; [exact D|]. rewrite !H by (cbn; auto). now split.
Qed.
Lemma own_lt : forall v s p fp c q, own v s p fp c -> In q fp -> (q < length (mem s))%nat.
Proof.
  intros v s p fp c q O I. assert (nth_error (mem s) q <> None); [|now apply nth_error_Some].
  destruct v; cbn in O; try (destruct O as (-> & O); destruct I as [<-|[]]; congruence).
  destruct O as (q' & -> & D & A & B). destruct I as [<-|[<-|[]]]; congruence.
Qed.
(* the cell of the provider's context *)
Definition inner (v : variant) (p : nat) (fp : list nat) : nat := match v with Outside => nth 1 fp p | _ => p end.
Lemma own_inner : forall v s p fp c, own v s p fp c -> provider_context v p s = Done (inner v p fp) s /\ get_obj s (inner v p fp) = Some (OBytes c) /\ In (inner v p fp) fp.
Proof.
  intros v s p fp c O. destruct v; cbn in O; try (destruct O as (-> & O); split; [reflexivity|]; cbn [inner]; split; [now rewrite (get_nth _ _ _ O)|now left]).
  destruct O as (q & -> & D & A & B). cbn. rewrite (get_nth _ _ _ A eq_refl). split; [reflexivity|]. split; [exact (get_nth _ _ _ B eq_refl)|auto].
Qed.
Lemma own_set : forall v s p fp c c', own v s p fp c -> own v (set_obj (inner v p fp) (OBytes c') s) p fp c'.
Proof.
  intros v s p fp c c' O. destruct v; cbn in *; try (destruct O as (-> & O); split; [reflexivity|]; now rewrite (set_nth_same _ _ _ _ O)).
  destruct O as (q & -> & D & A & B). exists q. split; [reflexivity|]. split; [exact D|]. cbn [nth]. rewrite set_nth_other by congruence. split; [exact A|].
  now rewrite (set_nth_same _ _ _ _ B).
Qed.

Lemma store_provider_ok : forall q c c' s, get_obj s q = Some (OBytes c) -> store_provider q c' s = Done tt (set_obj q (OBytes c') s).
Proof. intros q c c' s H. unfold store_provider. rewrite H. now rewrite (put_obj_ok _ _ _ _ H). Qed.

Lemma spec_length : forall a m, N.of_nat (length (spec_hash a m)) = digest_size a.
Proof.
  intros a m. replace (digest_size a) with (a_hs (alg_of a)) by (now destruct a). destruct a; try (rewrite spec_hash_length by (intros X; discriminate X); apply Nnat.N2Nat.id).
  unfold spec_hash, sha512. destruct (iterate (sha2_compress sha2_64) _ _ _) as [[[[[[[x0 x1] x2] x3] x4] x5] x6] x7]. reflexivity.
Qed.

Section Provider.
  Variables (E : env) (P : provider) (v : variant) (a : algid) (holds : list N -> list N -> Prop).
  Hypothesis HP : honours P a holds.

  Definition failed (s s' : state) : Prop := some_alloc_failed E s s' \/ ~ reliable P a.
  Lemma failed_mono : forall s s' t t', (tries t <= tries s)%nat -> (tries s' <= tries t')%nat -> failed s s' -> failed t t'.
  Proof. intros s s' t t' H1 H2 [(i & I & A)|R]; [left; exists i; split; [lia|exact A]|now right]. Qed.

  Lemma init_ok : forall e s, good_state s -> exists r s', evp_initialize E P v a (Some None) e s = Done r s' /\ step e [] s s' /\
    ((exists p fp c, r = (1%Z, Some p) /\ own v s' p fp c /\ holds c [] /\ (forall q, In q fp -> (length (mem s) <= q)%nat) /\ newlive s s' fp /\ errs s' = errs s) \/
     (r = ((-1)%Z, None) /\ newlive s s' [] /\ errors_added e s s' /\ failed s s')).
  Proof.
    intros e s G. unfold evp_initialize. destruct (alloc_ok E (tries s)) eqn:Al.
    2:{ erewrite bind_done by (now apply allocate_no). cbv iota beta. erewrite bind_done by apply fail_eq. eexists _, _. split; [reflexivity|].
        split; [apply (step_trans e [] [] s (tick s)); [now apply step_tick|now apply step_err|intros q []]|]. right. split; [reflexivity|].
        split; [exact (newlive_refl s [])|]. split; [exact (added_one e _ (tick s))|]. left. exists (tries s). split; [cbn; lia|exact Al]. }
    set (o := match v with Outside => OPtr None | _ => OBytes [] end). assert (Go : good_obj o) by (unfold o; destruct v; cbn; auto; constructor).
    set (s1 := tick (new_cell Heap o s)). assert (G1 : good_state s1) by (exact (good_new Heap o s G Go)).
    assert (S1 : step e [] s s1). { apply (step_trans e [] [] s (new_cell Heap o s)); [now apply step_new|apply step_tick; now apply good_new|intros q []]. }
    assert (N1 : newlive s s1 [length (mem s)]) by exact (newlive_new Heap o s).
    assert (C1 : nth_error (mem s1) (length (mem s)) = Some (mk_cell true Heap o)) by exact (nth_new Heap o s).
    assert (L1 : length (mem s1) = S (length (mem s))) by (unfold s1, new_cell, tick; cbn [mem]; rewrite app_length; cbn; lia).
    erewrite bind_done by (now apply allocate_ok). fold s1. cbv iota beta.
    assert (Alone : v <> Outside -> exists r s',
      (r <- provider_init P a (length (mem s)) ;; if (r =? 1)%Z then ret (1%Z, Some (length (mem s))) else r <- fail e E_RUNTIME_INITIALIZE_FAILED ;; mfree (length (mem s)) ;;; ret (r, None)) s1 = Done r s' /\
      step e [] s s' /\
      ((exists p fp c, r = (1%Z, Some p) /\ own v s' p fp c /\ holds c [] /\ (forall q, In q fp -> (length (mem s) <= q)%nat) /\ newlive s s' fp /\ errs s' = errs s) \/
       (r = ((-1)%Z, None) /\ newlive s s' [] /\ errors_added e s s' /\ failed s s'))).
    { intros NO. assert (o = OBytes []) by (unfold o; destruct v; congruence).
      assert (G0 : get_obj s1 (length (mem s)) = Some (OBytes [])) by (rewrite (get_nth _ _ _ C1) by reflexivity; cbn [content]; congruence).
      unfold provider_init. destruct (p_init P a s1) as [r c] eqn:Q.
      assert (Hb : Forall is_byte c) by (pose proof (h_init_bytes _ _ _ HP s1) as X; rewrite Q in X; exact X).
      erewrite bind_done.
      2:{ unfold ask. erewrite bind_done by reflexivity. rewrite Q. cbn [fst snd]. erewrite bind_done by (eapply store_provider_ok; exact G0). reflexivity. }
      set (s2 := set_obj (length (mem s)) (OBytes c) s1).
      assert (S2 : step e [length (mem s)] s1 s2) by (apply step_set; [exact G1|exact Hb]).
      assert (C2 : nth_error (mem s2) (length (mem s)) = Some (mk_cell true Heap (OBytes c))) by (unfold s2; now rewrite (set_nth_same _ _ _ _ C1)).
      assert (S02 : step e [] s s2) by (apply (step_trans e [] [length (mem s)] s s1 s2 S1 S2); intros q [<-|[]]; lia).
      assert (N2 : newlive s s2 [length (mem s)]).
      { apply (newlive_trans e [length (mem s)] s s1 s2 _ _ N1 S2); [apply newlive_set|intros q X _; exact X|intros q x X _ _ _; exact X]. }
      destruct (Z.eqb_spec r 1) as [->|R].
      - eexists _, _. split; [reflexivity|]. split; [exact S02|]. left. exists (length (mem s)), [length (mem s)], c. split; [reflexivity|].
        split; [destruct v; try congruence; now split|]. split; [exact (h_init _ _ _ HP _ _ Q)|]. split; [intros q [<-|[]]; lia|]. split; [exact N2|].
        unfold s2. now rewrite set_obj_errs.
      - erewrite bind_done by apply fail_eq. erewrite bind_done by (eapply mfree_ok; exact C2). eexists _, _. split; [reflexivity|].
        set (s3 := add_err e E_RUNTIME_INITIALIZE_FAILED s2). assert (G3 : good_state s3) by (exact (st_good _ _ _ _ S2)).
        assert (S23 : step e [] s2 s3) by (apply step_err; exact G3).
        assert (S34 : step e [length (mem s)] s3 (kill (length (mem s)) s3)) by (now apply step_kill).
        assert (S03 : step e [] s s3) by (apply (step_trans e [] [] s s2 s3 S02 S23); intros q []).
        split; [apply (step_trans e [] [length (mem s)] s s3 _ S03 S34); intros q [<-|[]]; lia|]. right. split; [reflexivity|].
        split; [|split].
        + apply (newlive_trans e [length (mem s)] s s3 _ [length (mem s)] []); [exact N2|exact S34|apply newlive_kill|intros q X Y; contradiction|].
          intros q x [<-|[]] _ X Lv. rewrite (kill_nth_same s3 _ _ C2) in X. injection X as <-. discriminate.
        + eapply added_l; [|exact S34]. eapply added_r; [exact S02|]. apply added_one.
        + right. intros Rel. destruct (Rel s1) as (R1 & _). rewrite Q in R1. now apply R. }
    destruct v eqn:V; [apply Alone; discriminate|apply Alone; discriminate|]. clear Alone.
    destruct (alloc_ok E (tries s1)) eqn:Al2.
    2:{ erewrite bind_done by (now apply allocate_no). cbv iota beta. erewrite bind_done by apply fail_eq.
        erewrite bind_done by (eapply mfree_ok; exact C1). eexists _, _. split; [reflexivity|].
        set (s2 := add_err e E_RUNTIME_INITIALIZE_FAILED (tick s1)). assert (G2 : good_state s2) by exact G1.
        assert (S12 : step e [] s1 s2) by (apply (step_trans e [] [] s1 (tick s1)); [now apply step_tick|now apply step_err|intros q []]).
        assert (S23 : step e [length (mem s)] s2 (kill (length (mem s)) s2)) by (now apply step_kill).
        assert (S02 : step e [] s s2) by (apply (step_trans e [] [] s s1 s2 S1 S12); intros q []).
        split; [apply (step_trans e [] [length (mem s)] s s2 _ S02 S23); intros q [<-|[]]; lia|]. right. split; [reflexivity|]. split; [|split].
        - apply (newlive_trans e [length (mem s)] s s2 _ [length (mem s)] []); [exact N1|exact S23|apply newlive_kill|intros q X Y; contradiction|].
          intros q x [<-|[]] _ X Lv. rewrite (kill_nth_same s2 _ _ C1) in X. injection X as <-. discriminate.
        - eapply added_l; [|exact S23]. eapply added_r; [exact S1|]. exact (added_one e _ (tick s1)).
        - left. exists (tries s1). split; [|exact Al2]. rewrite kill_tries. cbn; lia. }
    erewrite bind_done by (now apply allocate_ok). cbv iota beta. rewrite L1. set (p := length (mem s)) in *. set (q := S p) in *.
    set (s2 := tick (new_cell Heap (OBytes []) s1)).
    assert (G2 : good_state s2) by (apply (good_new Heap (OBytes []) s1 G1); constructor).
    assert (S12 : step e [] s1 s2). { apply (step_trans e [] [] s1 (new_cell Heap (OBytes []) s1)); [apply step_new; [exact G1|constructor]|now apply step_tick|intros x []]. }
    assert (Cp2 : nth_error (mem s2) p = Some (mk_cell true Heap (OPtr None))) by (rewrite (st_same _ _ _ _ S12); [exact C1|intros []|lia]).
    assert (Cq2 : nth_error (mem s2) q = Some (mk_cell true Heap (OBytes []))).
    { unfold s2. replace q with (length (mem s1)) by lia. exact (nth_new Heap (OBytes []) s1). }
    assert (N2 : newlive s s2 [p; q]).
    { apply (newlive_trans e [] s s1 s2 [p] [p; q]); [exact N1|exact S12| |intros x [<-|[]] _; now left|intros x c []].
      intros x c X Y Z. right. destruct (newlive_new Heap (OBytes []) s1 x c X Y Z) as [<-|[]]. left. exact (eq_sym L1). }
    assert (Pq : p <> q) by (unfold q; lia).
    erewrite bind_done.
    2:{ unfold set_provider_context. rewrite (get_nth _ _ _ Cp2) by reflexivity. cbn [content]. rewrite (put_obj_ok s2 p (OPtr None)) by exact (get_nth _ _ _ Cp2 eq_refl). reflexivity. }
    set (s3 := set_obj p (OPtr (Some q)) s2). assert (S23 : step e [p] s2 s3) by (apply step_set; [exact G2|exact I]).
    pose proof (st_good _ _ _ _ S23) as G3.
    assert (Cp3 : nth_error (mem s3) p = Some (mk_cell true Heap (OPtr (Some q)))) by (unfold s3; now rewrite (set_nth_same _ _ _ _ Cp2)).
    assert (Cq3 : nth_error (mem s3) q = Some (mk_cell true Heap (OBytes []))) by (unfold s3; now rewrite set_nth_other).
    unfold provider_init. destruct (p_init P a s3) as [r c] eqn:Q.
    assert (Hb : Forall is_byte c) by (pose proof (h_init_bytes _ _ _ HP s3) as X; rewrite Q in X; exact X).
    erewrite bind_done.
    2:{ unfold ask. erewrite bind_done by reflexivity. rewrite Q. cbn [fst snd]. erewrite bind_done by (eapply store_provider_ok; exact (get_nth _ _ _ Cq3 eq_refl)). reflexivity. }
    set (s4 := set_obj q (OBytes c) s3). assert (S34 : step e [q] s3 s4) by (apply step_set; [exact G3|exact Hb]). pose proof (st_good _ _ _ _ S34) as G4.
    assert (Cp4 : nth_error (mem s4) p = Some (mk_cell true Heap (OPtr (Some q)))) by (unfold s4; now rewrite set_nth_other by congruence).
    assert (Cq4 : nth_error (mem s4) q = Some (mk_cell true Heap (OBytes c))) by (unfold s4; now rewrite (set_nth_same _ _ _ _ Cq3)).
    assert (N4 : newlive s s4 [p; q]).
    { apply (newlive_trans e [q] s s3 s4 [p; q]); [|exact S34|apply newlive_set|intros x X _; exact X|intros x y [<-|[]] _ _ _; cbn; auto].
      apply (newlive_trans e [p] s s2 s3 [p; q]); [exact N2|exact S23|apply newlive_set|intros x X _; exact X|intros x y [<-|[]] _ _ _; cbn; auto]. }
    assert (S04 : step e [] s s4).
    { apply (step_trans e [] [q] s s3 s4); [|exact S34|intros x [<-|[]]; lia]. apply (step_trans e [] [p] s s2 s3); [|exact S23|intros x [<-|[]]; lia].
      apply (step_trans e [] [] s s1 s2 S1 S12). intros x []. }
    destruct (Z.eqb_spec r 1) as [->|R].
    - eexists _, _. split; [reflexivity|]. split; [exact S04|]. left. exists p, [p; q], c. split; [reflexivity|]. split; [exists q; now repeat split|].
      split; [exact (h_init _ _ _ HP _ _ Q)|]. split; [intros x [<-|[<-|[]]]; lia|]. split; [exact N4|]. unfold s4, s3. now rewrite !set_obj_errs.
    - erewrite bind_done by apply fail_eq. set (s5 := add_err e E_RUNTIME_INITIALIZE_FAILED s4).
      erewrite bind_done by (eapply mfree_ok; exact Cq4). set (s6 := kill q s5).
      assert (S56 : step e [q] s5 s6) by (apply step_kill; exact G4).
      assert (Cp6 : nth_error (mem s6) p = Some (mk_cell true Heap (OPtr (Some q)))) by (unfold s6; rewrite kill_nth_other by congruence; exact Cp4).
      assert (Cq6 : nth_error (mem s6) q = Some (mk_cell false Heap (OBytes c))) by (exact (kill_nth_same s5 q _ Cq4)).
      erewrite bind_done.
      2:{ unfold set_provider_context. rewrite (get_nth _ _ _ Cp6) by reflexivity. cbn [content]. rewrite (put_obj_ok s6 p (OPtr (Some q))) by exact (get_nth _ _ _ Cp6 eq_refl). reflexivity. }
      set (s7 := set_obj p (OPtr None) s6). assert (S67 : step e [p] s6 s7) by (apply step_set; [exact (st_good _ _ _ _ S56)|exact I]).
      assert (Cp7 : nth_error (mem s7) p = Some (mk_cell true Heap (OPtr None))) by (unfold s7; now rewrite (set_nth_same _ _ _ _ Cp6)).
      assert (Cq7 : nth_error (mem s7) q = Some (mk_cell false Heap (OBytes c))) by (unfold s7; now rewrite set_nth_other).
      erewrite bind_done by (eapply mfree_ok; exact Cp7). set (s8 := kill p s7).
      assert (S78 : step e [p] s7 s8) by (apply step_kill; exact (st_good _ _ _ _ S67)).
      assert (Cp8 : nth_error (mem s8) p = Some (mk_cell false Heap (OPtr None))) by (exact (kill_nth_same s7 p _ Cp7)).
      assert (Cq8 : nth_error (mem s8) q = Some (mk_cell false Heap (OBytes c))) by (unfold s8; rewrite kill_nth_other by congruence; exact Cq7).
      assert (S48 : step e [p; q] s4 s8).
      { apply (step_trans e [p; q] [p] s4 s7); [|exact S78|intros x [<-|[]] _; now left]. apply (step_trans e [p; q] [p] s4 s6); [|exact S67|intros x [<-|[]] _; now left].
        apply (step_trans e [p; q] [q] s4 s5); [now apply step_err|exact S56|intros x [<-|[]] _; cbn; auto]. }
      eexists _, _. split; [reflexivity|]. split; [apply (step_trans e [] [p; q] s s4 s8 S04 S48); intros x [<-|[<-|[]]]; lia|]. right. split; [reflexivity|]. split; [|split].
      + apply (newlive_trans e [p; q] s s4 s8 [p; q] []); [exact N4|exact S48| |intros x X Y; contradiction|].
        * intros x y X Y _. exfalso. assert (x < length (mem s8))%nat by (apply nth_error_Some; congruence). unfold s8, s7, s6 in *. rewrite !kill_length, set_obj_length, kill_length in *. cbn [add_err mem s5] in *. lia.
        * intros x y [<-|[<-|[]]] _ X Lv; [rewrite Cp8 in X|rewrite Cq8 in X]; injection X as <-; discriminate.
      + eapply added_r; [exact S04|]. apply (added_l e [q; p] s4 s5); [apply added_one|]. apply (step_trans e [q; p] [p] s5 s7); [|exact S78|intros x [<-|[]] _; cbn; auto].
        apply (step_trans e [q; p] [p] s5 s6); [|exact S67|intros x [<-|[]] _; cbn; auto]. apply (step_weaken e [q]); [exact S56|intros x [<-|[]] _; now left].
      + right. intros Rel. destruct (Rel s3) as (R1 & _). rewrite Q in R1. now apply R.
  Qed.

  Definition got (s : state) (b : option ptr) (n : N) : list N := match b with Some q => bytes_at s q n | None => [] end.

  Lemma update_ok : forall e s p fp c m buffer size, good_state s -> own v s p fp c -> holds c m -> arg s buffer size ->
    exists r s', evp_update E P v a (Some p) buffer size e s = Done r s' /\ step e fp s s' /\ newlive s s' [] /\
    ((exists c', r = 1%Z /\ own v s' p fp c' /\ holds c' (m ++ got s buffer size) /\ errs s' = errs s /\ buffer <> None /\ size <= evp_size_max E v) \/
     (exists c', r = (-1)%Z /\ own v s' p fp c' /\ errors_added e s s' /\ (buffer = None \/ evp_size_max E v < size \/ failed s s'))).
  Proof.
    intros e s p fp c m [b|] size G O H A.
    2:{ eexists _, _. split; [reflexivity|]. split; [now apply step_err|]. split; [apply newlive_err|]. right. exists c. split; [reflexivity|]. split; [exact O|].
        split; [apply added_one|now left]. }
    unfold evp_update. destruct (N.ltb_spec (evp_size_max E v) size) as [L|L].
    { eexists _, _. split; [reflexivity|]. split; [now apply step_err|]. split; [apply newlive_err|]. right. exists c. split; [reflexivity|]. split; [exact O|].
      split; [apply added_one|]. right. now left. }
    destruct (N.eqb_spec size 0) as [->|Z0].
    { eexists _, _. split; [reflexivity|]. split; [now apply step_refl|]. split; [apply newlive_refl|]. left. exists c. split; [reflexivity|]. split; [exact O|].
      split; [|split; [reflexivity|split; [discriminate|exact L]]]. replace (got s (Some b) 0) with (@nil N); [now rewrite app_nil_r|].
      unfold got, bytes_at. destruct (get_obj s (fst b)) as [[l| |]|]; reflexivity. }
    destruct (own_inner _ _ _ _ _ O) as (Q1 & Q2 & Q3). set (q := inner v p fp) in *. destruct A as (l & A & B).
    erewrite bind_done by exact Q1. erewrite bind_done by (unfold load_provider; rewrite Q2; reflexivity).
    erewrite bind_done by (eapply view_ok; [exact A|lia]). rewrite take_ok by (rewrite skipn_length; lia).
    erewrite bind_done by apply lift_some.
    assert (D : firstn (N.to_nat size) (skipn (N.to_nat (snd b)) l) = bytes_at s b size) by (unfold bytes_at; now rewrite A). rewrite D.
    destruct (p_update P a s c (bytes_at s b size)) as [r c'] eqn:U.
    assert (Hb : Forall is_byte c') by (pose proof (h_update_bytes _ _ _ HP s c (bytes_at s b size)) as X; rewrite U in X; exact X).
    erewrite bind_done by reflexivity. cbv beta. rewrite U. cbn [fst snd]. erewrite bind_done by (eapply store_provider_ok; exact Q2).
    set (s1 := set_obj q (OBytes c') s).
    assert (S1 : step e fp s s1) by (apply (step_weaken e [q]); [apply step_set; [exact G|exact Hb]|intros x [<-|[]] _; exact Q3]).
    assert (O1 : own v s1 p fp c') by (apply (own_set _ _ _ _ c); exact O).
    destruct (Z.eqb_spec r 1) as [->|R].
    - eexists _, _. split; [reflexivity|]. split; [exact S1|]. split; [apply newlive_set|]. left. exists c'. split; [reflexivity|]. split; [exact O1|].
      split; [|split; [apply set_obj_errs|split; [discriminate|exact L]]]. apply (h_update _ _ _ HP s c m (bytes_at s b size) c' H); [now apply bytes_bytes|exact U].
    - rewrite fail_eq. eexists _, _. split; [reflexivity|]. split; [apply (step_trans e fp [] s s1); [exact S1|apply step_err; exact (st_good _ _ _ _ S1)|intros x []]|].
      split; [exact (newlive_set s q (OBytes c') [])|]. right. exists c'. split; [reflexivity|]. split; [exact O1|]. split; [eapply added_r; [exact S1|apply added_one]|].
      right. right. right. intros Rel. destruct (Rel s) as (_ & _ & X). destruct (X c) as (_ & Y). specialize (Y (bytes_at s b size)). rewrite U in Y. now apply R.
  Qed.

  (* the place for a digest *)
  Definition outs (hm : option ptr) : list nat := match hm with Some h => [fst h] | None => [] end.
  Definition outrel (hm : option ptr) (s s' : state) : Prop :=
    match hm with
    | None => True
    | Some h => forall c, nth_error (mem s) (fst h) = Some c -> exists l l', content c = OBytes l /\
        nth_error (mem s') (fst h) = Some (mk_cell (live c) (knd c) (OBytes l')) /\ length l' = length l /\
        forall i, (N.of_nat i < snd h \/ snd h + digest_size a <= N.of_nat i) -> nth_error l' i = nth_error l i
    end.
  Lemma outrel_same : forall hm s s' n, arg s hm n -> (forall q, In q (outs hm) -> nth_error (mem s') q = nth_error (mem s) q) -> outrel hm s s'.
  Proof.
    intros [h|] s s' n A H; [|exact I]. intros c C. destruct A as (l & A & _). unfold get_obj in A. rewrite C in A. destruct (live c) eqn:L; [|discriminate].
    injection A as A. exists l, l. split; [exact A|]. split; [rewrite H by (now left); rewrite C; destruct c; cbn in *; congruence|]. now split.
  Qed.
  Lemma outrel_trans : forall hm s s' s'', outrel hm s s' -> outrel hm s' s'' -> outrel hm s s''.
  Proof.
    intros [h|] s s' s'' A B; [|exact I]. intros c C. destruct (A c C) as (l & l' & H1 & H2 & H3 & H4). destruct (B _ H2) as (m & m' & I1 & I2 & I3 & I4).
    cbn in *. injection I1 as <-. exists l, m'. split; [exact H1|]. split; [exact I2|]. split; [congruence|]. intros i Hi. now rewrite I4, H4.
  Qed.
  Lemma arg_keep : forall e W s s' hm b n, step e W s s' -> (forall q, In q W -> (q < length (mem s))%nat -> In q (outs hm)) -> outrel hm s s' -> arg s b n -> arg s' b n.
  Proof.
    intros e W s s' hm [b|] n St HW R A; [|exact I]. pose proof (accessible_lt _ _ _ A) as L.
    destruct (in_dec Nat.eq_dec (fst b) W) as [I|I]; [|apply (accessible_same s); [now apply (st_same _ _ _ _ St)|exact A]].
    specialize (HW _ I L). destruct hm as [h|]; [|destruct HW]. destruct HW as [HW|[]]. destruct A as (l & A & B). unfold get_obj in A.
    destruct (nth_error (mem s) (fst b)) as [c|] eqn:C; [|discriminate]. destruct (live c) eqn:Lv; [|discriminate]. injection A as A. cbn in R. rewrite HW in R.
    destruct (R c C) as (m & m' & H1 & H2 & H3 & _). exists m'. split; [rewrite (get_nth _ _ _ H2); [reflexivity|exact Lv]|]. rewrite A in H1. injection H1 as <-. lia.
  Qed.

  Lemma digest_eq : a_hs (alg_of a) = digest_size a.
  Proof. destruct a; reflexivity. Qed.

  Definition hash_size_ok (n : N) : Prop := digest_size a <= n <= match v with Legacy _ => ssize_max E | _ => 2 ^ 32 - 1 end.

  Lemma final_ok : forall e s p fp c m hash hash_size, good_state s -> own v s p fp c -> holds c m -> arg s hash hash_size ->
    (forall q, In q fp -> ~ In q (outs hash)) ->
    exists r s', evp_finalize E P v a (Some p) hash hash_size e s = Done r s' /\ step e (fp ++ outs hash) s s' /\ newlive s s' [] /\ outrel hash s s' /\
    exists c', own v s' p fp c' /\
    ((r = 1%Z /\ errs s' = errs s /\ hash <> None /\ hash_size_ok hash_size /\ got s' hash (digest_size a) = spec_hash a m) \/
     (r = (-1)%Z /\ errors_added e s s' /\ (hash = None \/ ~ hash_size_ok hash_size \/ failed s s'))).
  Proof.
    intros e s p fp c m [h|] n G O H A D.
    2:{ eexists _, _. split; [reflexivity|]. split; [now apply step_err|]. split; [apply newlive_err|]. split; [exact I|]. exists c. split; [exact O|]. right. split; [reflexivity|].
        split; [apply added_one|now left]. }
    assert (Bad : forall k, ~ hash_size_ok n -> exists r s', fail e k s = Done r s' /\ step e (fp ++ outs (Some h)) s s' /\ newlive s s' [] /\ outrel (Some h) s s' /\
      exists c', own v s' p fp c' /\
      ((r = 1%Z /\ errs s' = errs s /\ Some h <> None /\ hash_size_ok n /\ got s' (Some h) (digest_size a) = spec_hash a m) \/
       (r = (-1)%Z /\ errors_added e s s' /\ (Some h = None \/ ~ hash_size_ok n \/ failed s s')))).
    { intros k B. eexists _, _. split; [apply fail_eq|]. split; [now apply step_err|]. split; [apply newlive_err|]. split; [apply (outrel_same (Some h) s _ n A); reflexivity|].
      exists c. split; [exact O|]. right. split; [reflexivity|]. split; [apply added_one|]. right. now left. }
    unfold evp_finalize. set (reject := match v with Legacy _ => _ | _ => _ end).
    assert (Rj : match reject with Some _ => ~ hash_size_ok n | None => hash_size_ok n end).
    { unfold reject, hash_size_ok. rewrite digest_eq. destruct v; destruct (N.ltb_spec n (digest_size a)); destruct (N.ltb_spec (2 ^ 32 - 1) n); destruct (N.ltb_spec (ssize_max E) n); cbn [orb]; lia. }
    clearbody reject. destruct reject as [k|]; [now apply Bad|]. clear Bad.
    destruct (own_inner _ _ _ _ _ O) as (Q1 & Q2 & Q3). set (q := inner v p fp) in *. destruct A as (l & A & B).
    erewrite bind_done by exact Q1. erewrite bind_done by (unfold load_provider; rewrite Q2; reflexivity).
    erewrite bind_done by reflexivity. cbv beta. destruct (p_final P a s c) as [[r d] c'] eqn:U. cbn [fst snd].
    assert (Hc : Forall is_byte c' /\ Forall is_byte d) by (pose proof (h_final_bytes _ _ _ HP s c) as X; rewrite U in X; exact X). destruct Hc as (Hc & Hd).
    assert (Ld : N.of_nat (length d) <= digest_size a) by (pose proof (h_final_size _ _ _ HP s c) as X; rewrite U in X; exact X).
    destruct Rj as (Rj1 & Rj2).
    erewrite bind_done by (eapply write_ok; [exact A|lia]). set (l' := put l (snd h) d). set (s1 := set_obj (fst h) (OBytes l') s).
    assert (Pl : length l' = length l) by (apply put_length; lia).
    assert (Gl' : Forall is_byte l').
    { pose proof (G _ _ A) as Gl. cbn in Gl. unfold l', put. apply Forall_app. split; [now apply Forall_firstn|]. apply Forall_app. split; [exact Hd|now apply Forall_skipn]. }
    assert (S1 : step e (fp ++ outs (Some h)) s s1) by (apply (step_weaken e [fst h]); [now apply step_set|intros x [<-|[]] _; apply in_or_app; right; now left]).
    assert (Qh : fst h <> q) by (intros X; apply (D q Q3); left; exact X).
    erewrite bind_done by (eapply store_provider_ok; unfold s1; rewrite get_set_other by exact Qh; exact Q2).
    set (s2 := set_obj q (OBytes c') s1).
    assert (S2 : step e (fp ++ outs (Some h)) s1 s2) by (apply (step_weaken e [q]); [apply step_set; [exact (st_good _ _ _ _ S1)|exact Hc]|intros x [<-|[]] _; apply in_or_app; now left]).
    assert (S02 : step e (fp ++ outs (Some h)) s s2) by (apply (step_trans e _ _ s s1 s2 S1 S2); intros x X _; exact X).
    assert (N2 : newlive s s2 []).
    { intros x y X Y _. exfalso. assert (x < length (mem s2))%nat by (apply nth_error_Some; congruence). unfold s2, s1 in *. rewrite !set_obj_length in *. lia. }
    assert (O2 : own v s2 p fp c').
    { apply (own_set _ _ _ _ c). apply (own_same v s); [exact O|]. intros x X. apply set_nth_other. intros <-. apply (D _ X). now left. }
    assert (R2 : outrel (Some h) s s2).
    { intros ch Ch. unfold get_obj in A. rewrite Ch in A. destruct (live ch) eqn:Lv; [|discriminate]. injection A as A. exists l, l'. split; [exact A|].
      split; [unfold s2; rewrite set_nth_other by congruence; unfold s1; rewrite (set_nth_same _ _ _ _ Ch); now rewrite Lv|]. split; [exact Pl|].
      intros i Hi. unfold l', put. destruct (Nat.lt_ge_cases i (N.to_nat (snd h))) as [Li|Li].
      - rewrite nth_error_app1 by (rewrite firstn_length; lia). clear - Li. revert l i Li. induction (N.to_nat (snd h)); intros [|x l] [|i] Li; try lia; cbn; try reflexivity. apply IHn. lia.
      - rewrite nth_error_app2 by (rewrite firstn_length; lia). rewrite nth_error_app2 by (rewrite firstn_length; lia). rewrite firstn_length, Nat.min_l by lia.
        rewrite nth_error_skipn'. f_equal. lia. }
    assert (Gt : d = spec_hash a m -> got s2 (Some h) (digest_size a) = spec_hash a m).
    { intros Hs. unfold got, bytes_at, s2. rewrite get_set_other by congruence. unfold s1. rewrite (get_set_same _ _ _ _ A).
      pose proof (spec_length a m) as SL. rewrite <- Hs in *. unfold l', put. replace (N.to_nat (digest_size a)) with (length d) by lia.
      apply skipn_firstn_app. lia. }
    destruct (Z.eqb_spec r 1) as [->|R].
    - eexists _, _. split; [reflexivity|]. split; [exact S02|]. split; [exact N2|]. split; [exact R2|]. exists c'. split; [exact O2|]. left. split; [reflexivity|].
      split; [unfold s2, s1; now rewrite !set_obj_errs|]. split; [discriminate|]. split; [split; assumption|]. apply Gt. exact (h_final _ _ _ HP s c m d c' H U).
    - rewrite fail_eq. eexists _, _. split; [reflexivity|]. split; [apply (step_trans e _ [] s s2 _ S02); [apply step_err; exact (st_good _ _ _ _ S02)|intros x []]|].
      split; [exact N2|]. split; [exact R2|]. exists c'. split; [exact O2|]. right. split; [reflexivity|]. split; [eapply added_r; [exact S02|apply added_one]|].
      right. right. right. intros Rel. destruct (Rel s) as (_ & _ & X). destruct (X c) as (Y & _). rewrite U in Y. now apply R.
  Qed.

  Lemma free_ok : forall e s p fp c, good_state s -> own v s p fp c -> exists s', evp_free P v a (Some (Some p)) e s = Done (1%Z, None) s' /\
    step e fp s s' /\ newlive s s' [] /\ (forall q y, In q fp -> nth_error (mem s') q = Some y -> live y = false) /\ tries s' = tries s /\ (reliable P a -> errs s' = errs s).
  Proof.
    intros e s p fp c G O. unfold evp_free.
    assert (One : forall s1, fp = [p] -> nth_error (mem s1) p = Some (mk_cell true Heap (OBytes c)) -> mem s1 = mem s -> tries s1 = tries s -> (reliable P a -> errs s1 = errs s) ->
      (exists ks, errs s1 = errs s ++ ks /\ (e = false -> ks = [])) ->
      exists s', (mfree p ;;; ret (1%Z, @None nat)) s1 = Done (1%Z, None) s' /\
      step e fp s s' /\ newlive s s' [] /\ (forall q y, In q fp -> nth_error (mem s') q = Some y -> live y = false) /\ tries s' = tries s /\ (reliable P a -> errs s' = errs s)).
    { intros s1 Hf C M T Er Ek. assert (G1 : good_state s1) by (intros x y X; apply (G x); unfold get_obj in *; now rewrite <- M).
      erewrite bind_done by (eapply mfree_ok; exact C). eexists. split; [reflexivity|]. rewrite Hf.
      assert (S1 : step e [] s s1) by (constructor; [exact G1|now rewrite M|now rewrite M|lia|exact Ek]).
      split; [apply (step_trans e [p] [p] s s1); [apply (step_weaken e []); [exact S1|intros x []]|now apply step_kill|now intros]|].
      split; [intros x y X Y; exfalso; assert (x < length (mem (kill p s1)))%nat by (apply nth_error_Some; congruence); rewrite kill_length, M in *; lia|].
      split; [intros q y [<-|[]] Y; rewrite (kill_nth_same _ _ _ C) in Y; injection Y as <-; reflexivity|]. split; [now rewrite kill_tries|]. intros Rel. rewrite kill_errs. now apply Er. }
    destruct v eqn:V; cbn in O.
    - destruct O as (Hf & C). erewrite bind_done by reflexivity. apply One; auto. exists []. now rewrite app_nil_r.
    - destruct O as (Hf & C). erewrite bind_done.
      2:{ erewrite bind_done by reflexivity. cbv beta. instantiate (1 := if (p_cleanup P a s =? 1)%Z then s else add_err e E_RUNTIME_FINALIZE_FAILED s). instantiate (1 := tt).
          destruct (p_cleanup P a s =? 1)%Z; [reflexivity|]. unfold error_set, add_err. destruct e; [reflexivity|]. destruct s; reflexivity. }
      destruct (Z.eqb_spec (p_cleanup P a s) 1) as [X|X]; [apply One; auto; exists []; now rewrite app_nil_r|].
      apply One; try assumption; try reflexivity.
      + intros Rel. destruct (Rel s) as (_ & Y & _). contradiction.
      + exists (if e then [E_RUNTIME_FINALIZE_FAILED] else []). cbn. destruct e; (split; [|now intros]); [reflexivity|now rewrite app_nil_r].
    - destruct O as (q & Hf & D & Cp & Cq). erewrite bind_done.
      2:{ erewrite bind_done by (cbn [provider_context]; rewrite (get_nth _ _ _ Cp eq_refl); reflexivity). erewrite bind_done by (eapply mfree_ok; exact Cq).
          unfold set_provider_context. assert (X : get_obj (kill q s) p = Some (OPtr (Some q))) by (rewrite (get_same s); [exact (get_nth _ _ _ Cp eq_refl)|apply kill_nth_other; congruence]).
          rewrite X. rewrite (put_obj_ok _ _ _ _ X). reflexivity. }
      set (s1 := kill q s). assert (S1 : step e [q] s s1) by now apply step_kill.
      assert (Cp1 : nth_error (mem s1) p = Some (mk_cell true Heap (OPtr (Some q)))) by (unfold s1; now rewrite kill_nth_other by congruence).
      set (s2 := set_obj p (OPtr None) s1). assert (S2 : step e [p] s1 s2) by (apply step_set; [exact (st_good _ _ _ _ S1)|exact I]).
      assert (Cp2 : nth_error (mem s2) p = Some (mk_cell true Heap (OPtr None))) by (unfold s2; now rewrite (set_nth_same _ _ _ _ Cp1)).
      erewrite bind_done by (eapply mfree_ok; exact Cp2). set (s3 := kill p s2). assert (S3 : step e [p] s2 s3) by (apply step_kill; exact (st_good _ _ _ _ S2)).
      eexists. split; [reflexivity|]. fold s3. rewrite Hf. split; [|split; [|split; [|split]]].
      + apply (step_trans e [p; q] [p] s s2); [|exact S3|intros x [<-|[]] _; now left]. apply (step_trans e [p; q] [p] s s1); [|exact S2|intros x [<-|[]] _; now left].
        apply (step_weaken e [q]); [exact S1|intros x [<-|[]] _; cbn; auto].
      + intros x y X Y _. exfalso. assert (x < length (mem s3))%nat by (apply nth_error_Some; congruence). unfold s3, s2, s1 in *. rewrite kill_length, set_obj_length, kill_length in *. lia.
      + intros x y [<-|[<-|[]]] Y; [unfold s3 in Y; rewrite (kill_nth_same _ _ _ Cp2) in Y; injection Y as <-; reflexivity|].
        unfold s3, s2 in Y. rewrite kill_nth_other, set_nth_other in Y by congruence. unfold s1 in Y. rewrite (kill_nth_same _ _ _ Cq) in Y. injection Y as <-. reflexivity.
      + unfold s3, s2, s1. now rewrite kill_tries, set_obj_tries, kill_tries.
      + intros _. unfold s3, s2, s1. now rewrite kill_errs, set_obj_errs, kill_errs.
  Qed.

  (* ---------------------------------------------- initialize, update some times, finalize, free *)

  Definition F : functions := evp E P v a.
  Fixpoint feed (context : option nat) (ups : list (option ptr * N)) (e : bool) : M bool :=
    match ups with
    | [] => ret true
    | (b, n) :: ups =>
        r <- f_update F context b n e ;;
        if negb (r =? 1)%Z then error_set e E_RUNTIME_SET_FAILED ;;; ret false else feed context ups e
    end.
  Definition session (ups : list (option ptr * N)) (hash : option ptr) (hash_size : N) (e : bool) : M (option (option nat)) :=
    r <- f_initialize F (Some None) e ;;
    let context := snd r in
    if negb (fst r =? 1)%Z then error_set e E_RUNTIME_INITIALIZE_FAILED ;;; ret (Some context)
    else
      ok <- feed context ups e ;;
      if negb ok then ret (Some context)
      else
        r <- f_finalize F context hash hash_size e ;;
        if negb (r =? 1)%Z then error_set e E_RUNTIME_FINALIZE_FAILED ;;; ret (Some context)
        else
          r <- f_free F (Some context) e ;;
          let context := snd r in
          if negb (fst r =? 1)%Z then error_set e E_RUNTIME_FINALIZE_FAILED ;;; ret (Some context)
          else ret None.

  Lemma error_set_eq : forall e k s, error_set e k s = Done tt (add_err e k s).
  Proof. intros [|] k s; reflexivity. Qed.
  Lemma pass_session : forall pad buffer size hm n e s,
    hmac_pass_with F a pad buffer size hm n e s = session [(Some (pad, 0), hmac_block_size a); (buffer, size)] hm n e s.
  Proof.
    intros. unfold hmac_pass_with, session, feed. unfold bind, ret. destruct (f_initialize F (Some None) e s) as [r s1|]; [|reflexivity].
    destruct (negb (fst r =? 1)%Z); [reflexivity|]. destruct (f_update F _ _ _ e s1) as [r2 s2|]; [|reflexivity].
    destruct (negb (r2 =? 1)%Z); [destruct (error_set _ _ _); reflexivity|]. destruct (f_update F _ _ _ e s2) as [r3 s3|]; [|reflexivity].
    destruct (negb (r3 =? 1)%Z); [destruct (error_set _ _ _); reflexivity|]. reflexivity.
  Qed.
  Lemma calculate_session : forall buffer size hash n e s,
    calculate_with F a buffer size hash n e s =
    (r <- session [(buffer, size)] hash n e ;; match r with None => ret 1%Z | Some context => calculate_on_error_with F context end) s.
  Proof.
    intros. unfold calculate_with, session, feed. unfold bind, ret. destruct (f_initialize F (Some None) e s) as [r s1|]; [|reflexivity].
    destruct (negb (fst r =? 1)%Z); [destruct (error_set _ _ _); reflexivity|]. destruct (f_update F _ _ _ e s1) as [r2 s2|]; [|reflexivity].
    destruct (negb (r2 =? 1)%Z); [destruct (error_set _ _ _); reflexivity|]. cbn [negb]. destruct (f_finalize F _ _ _ e s2) as [r3 s3|]; [|reflexivity].
    destruct (negb (r3 =? 1)%Z); [destruct (error_set _ _ _); reflexivity|]. destruct (f_free F _ e s3) as [r4 s4|]; [|reflexivity].
    destruct (negb (fst r4 =? 1)%Z); [destruct (error_set _ _ _); reflexivity|]. reflexivity.
  Qed.

  Definition up_bad (up : option ptr * N) : Prop := fst up = None \/ evp_size_max E v < snd up.
  Definition all_got (s : state) (ups : list (option ptr * N)) : list N := concat (map (fun up => got s (fst up) (snd up)) ups).

  Lemma all_got_same : forall s s' ups, (forall up b, In up ups -> fst up = Some b -> nth_error (mem s') (fst b) = nth_error (mem s) (fst b)) -> all_got s' ups = all_got s ups.
  Proof.
    intros s s' ups H. unfold all_got. f_equal. apply map_ext_in. intros [[b|] n] I; [|reflexivity]. cbn. apply bytes_same. now apply (H _ b I).
  Qed.

  Lemma feed_ok : forall e ups s p fp c m, good_state s -> own v s p fp c -> holds c m ->
    (forall up, In up ups -> arg s (fst up) (snd up)) -> (forall up b, In up ups -> fst up = Some b -> ~ In (fst b) fp) ->
    exists r s' c', feed (Some p) ups e s = Done r s' /\ step e fp s s' /\ newlive s s' [] /\ own v s' p fp c' /\
    ((r = true /\ holds c' (m ++ all_got s ups) /\ errs s' = errs s /\ forall up, In up ups -> ~ up_bad up) \/
     (r = false /\ errors_added e s s' /\ ((exists up, In up ups /\ up_bad up) \/ failed s s'))).
  Proof.
    intros e ups. induction ups as [|[b n] ups IH]; intros s p fp c m G O H A D.
    - exists true, s, c. split; [reflexivity|]. split; [now apply step_refl|]. split; [apply newlive_refl|]. split; [exact O|]. left. split; [reflexivity|].
      split; [cbn; now rewrite app_nil_r|]. split; [reflexivity|]. intros up [].
    - destruct (update_ok e s p fp c m b n G O H (A (b, n) (or_introl eq_refl))) as (r & s1 & U & S1 & N1 & [(c1 & -> & O1 & H1 & E1 & B1 & Z1)|(c1 & -> & O1 & E1 & X)]).
      + assert (Same : forall up q, In up ups -> fst up = Some q -> nth_error (mem s1) (fst q) = nth_error (mem s) (fst q)).
        { intros up q I Q. apply (st_same _ _ _ _ S1); [apply (D up q); [now right|exact Q]|]. specialize (A up (or_intror I)). rewrite Q in A. now apply (accessible_lt _ _ _ A). }
        destruct (IH s1 p fp c1 (m ++ got s b n) (st_good _ _ _ _ S1) O1 H1) as (r & s2 & c2 & U2 & S2 & N2 & O2 & R2).
        { intros [[q|] k] I; [|exact Logic.I]. cbn. apply (accessible_same s); [now apply (Same (Some q, k) q I)|exact (A _ (or_intror I))]. }
        { intros up q I. apply (D up q). now right. }
        exists r, s2, c2. split; [cbn [feed F]; unfold F; cbn [f_update evp]; erewrite bind_done by exact U; exact U2|].
        split; [apply (step_trans e fp fp s s1 s2 S1 S2); auto|].
        split; [apply (newlive_trans e fp s s1 s2 [] [] N1 S2 N2); [now intros|]|].
        { intros q y I L. exfalso. destruct (Nat.lt_ge_cases q (length (mem s))) as [X|X]; [lia|].
          apply (own_lt _ _ _ _ _ _ O) in I. lia. }
        split; [exact O2|]. destruct R2 as [(-> & H2 & E2 & Z2)|(-> & E2 & X)].
        * left. split; [reflexivity|]. split; [|split; [congruence|]].
          -- rewrite (all_got_same s s1 ups Same), <- app_assoc in H2. exact H2.
          -- intros up [<-|I]; [|now apply Z2]. intros [X|X]; cbn in X; [now apply B1|lia].
        * right. split; [reflexivity|]. split; [apply (added_r e fp s s1 s2 S1 E2)|]. destruct X as [(up & I & X)|X]; [left; exists up; split; [now right|exact X]|].
          right. apply (failed_mono s1 s2); [apply (st_tries _ _ _ _ S1)|lia|exact X].
      + exists false, (add_err e E_RUNTIME_SET_FAILED s1), c1. split; [cbn [feed F]; unfold F; cbn [f_update evp]; erewrite bind_done by exact U; cbn [Z.eqb negb]; erewrite bind_done by apply error_set_eq; reflexivity|].
        assert (S2 : step e [] s1 (add_err e E_RUNTIME_SET_FAILED s1)) by (apply step_err; exact (st_good _ _ _ _ S1)).
        split; [apply (step_trans e fp [] s s1 _ S1 S2); intros q []|]. split; [exact N1|]. split; [exact O1|]. right. split; [reflexivity|].
        split; [exact (added_l e [] s s1 _ E1 S2)|]. destruct X as [X|[X|X]]; [left; exists (b, n); split; [now left|now left]|left; exists (b, n); split; [now left|now right]|].
        right. exact X.
  Qed.

  Definition held (s s' : state) (context : option nat) : Prop :=
    match context with
    | None => newlive s s' []
    | Some p => exists fp c, own v s' p fp c /\ newlive s s' fp /\ forall q, In q fp -> (length (mem s) <= q)%nat
    end.

  Lemma session_ok : forall e ups s hm n, good_state s -> (forall up, In up ups -> arg s (fst up) (snd up)) -> arg s hm n ->
    exists r s', session ups hm n e s = Done r s' /\ step e (outs hm) s s' /\ outrel hm s s' /\
    ((r = None /\ newlive s s' [] /\ (reliable P a -> errs s' = errs s) /\ hm <> None /\ hash_size_ok n /\ (forall up, In up ups -> ~ up_bad up) /\
      got s' hm (digest_size a) = spec_hash a (all_got s ups)) \/
     (exists context, r = Some context /\ held s s' context /\ errors_added e s s' /\
      ((exists up, In up ups /\ up_bad up) \/ hm = None \/ ~ hash_size_ok n \/ failed s s'))).
  Proof.
    intros e ups s hm n G A H. unfold session.
    destruct (init_ok e s G) as (r & s1 & I1 & S1 & [(p & fp & c & -> & O1 & H1 & L1 & N1 & E1)|(-> & N1 & E1 & X)]).
    2:{ change (f_initialize F) with (evp_initialize E P v a). erewrite bind_done by exact I1. cbn [fst snd Z.eqb negb]. erewrite bind_done by apply error_set_eq.
        assert (S2 : step e [] s1 (add_err e E_RUNTIME_INITIALIZE_FAILED s1)) by (apply step_err; exact (st_good _ _ _ _ S1)).
        eexists _, _. split; [reflexivity|]. assert (S3 : step e [] s (add_err e E_RUNTIME_INITIALIZE_FAILED s1)) by (apply (step_trans e [] [] s s1 _ S1 S2); intros q []).
        split; [apply (step_weaken e []); [exact S3|intros q []]|].
        split; [apply (outrel_same hm s _ n H); intros q Q; apply (st_same _ _ _ _ S3); [intros []|destruct hm; [destruct Q as [<-|[]]; now apply (accessible_lt _ _ _ H)|destruct Q]]|].
        right. exists None. split; [reflexivity|]. split; [exact N1|]. split; [exact (added_l _ _ _ _ _ E1 S2)|]. right. right. right. exact X. }
    change (f_initialize F) with (evp_initialize E P v a). erewrite bind_done by exact I1. cbn [fst snd Z.eqb Pos.eqb negb].
    assert (Lo : forall b, In b (outs hm) -> (b < length (mem s))%nat) by (intros b B; destruct hm; [destruct B as [<-|[]]; now apply (accessible_lt _ _ _ H)|destruct B]).
    assert (Lu : forall up b, In up ups -> fst up = Some b -> (fst b < length (mem s))%nat) by (intros up b I Q; specialize (A _ I); rewrite Q in A; now apply (accessible_lt _ _ _ A)).
    destruct (feed_ok e ups s1 p fp c [] (st_good _ _ _ _ S1) O1 H1) as (r & s2 & c2 & U2 & S2 & N2 & O2 & R2).
    { intros [[b|] k] I; [|exact Logic.I]. cbn. apply (accessible_same s); [apply (st_same _ _ _ _ S1); [intros []|now apply (Lu _ b I)]|exact (A _ I)]. }
    { intros up b I Q X. specialize (L1 _ X). specialize (Lu _ _ I Q). lia. }
    erewrite bind_done by exact U2.
    assert (Below : forall q, In q fp -> (q < length (mem s))%nat -> False) by (intros q I L; specialize (L1 _ I); lia).
    assert (S02 : step e [] s s2) by (apply (step_trans e [] fp s s1 s2 S1 S2); intros q I L; destruct (Below q I L)).
    assert (N02 : newlive s s2 fp) by (apply (newlive_trans e fp s s1 s2 fp fp N1 S2); [intros q y X Y Z; destruct (N2 q y X Y Z)|auto|auto]).
    assert (Same2 : forall q, In q (outs hm) -> nth_error (mem s2) q = nth_error (mem s) q) by (intros q Q; apply (st_same _ _ _ _ S02); [intros []|now apply Lo]).
    destruct R2 as [(-> & H2 & E2 & Z2)|(-> & E2 & X)].
    2:{ eexists _, _. split; [reflexivity|]. split; [apply (step_weaken e []); [exact S02|intros q []]|]. split; [exact (outrel_same hm s s2 n H Same2)|].
        right. exists (Some p). split; [reflexivity|]. split; [exists fp, c2; auto|]. split; [exact (added_r _ _ _ _ _ S1 E2)|]. destruct X as [X|X]; [now left|].
        right. right. right. apply (failed_mono s1 s2); [apply (st_tries _ _ _ _ S1)|lia|exact X]. }
    cbn [negb]. rewrite app_nil_l in H2. rewrite (all_got_same s s1 ups) in H2 by (intros up b I Q; apply (st_same _ _ _ _ S1); [intros []|now apply (Lu up)]).
    destruct (final_ok e s2 p fp c2 (all_got s ups) hm n (st_good _ _ _ _ S2) O2 H2) as (r & s3 & U3 & S3 & N3 & R3 & c3 & O3 & X3).
    { destruct hm as [h|]; [|exact Logic.I]. apply (accessible_same s); [apply Same2; now left|exact H]. }
    { intros q I Q. specialize (Lo _ Q). specialize (L1 _ I). lia. }
    assert (S03 : step e (outs hm) s s3).
    { apply (step_trans e (outs hm) (fp ++ outs hm) s s2 s3); [apply (step_weaken e []); [exact S02|intros q []]|exact S3|].
      intros q I L. apply in_app_or in I. destruct I as [I|I]; [destruct (Below q I L)|exact I]. }
    assert (R03 : outrel hm s s3) by (apply (outrel_trans hm s s2 s3); [exact (outrel_same hm s s2 n H Same2)|exact R3]).
    assert (N03 : newlive s s3 fp).
    { apply (newlive_trans e (fp ++ outs hm) s s2 s3 fp fp N02 S3); [intros q y X Y Z; destruct (N3 q y X Y Z)|auto|].
      intros q y I L _ _. apply in_app_or in I. destruct I as [I|I]; [exact I|]. specialize (Lo _ I). lia. }
    change (f_finalize F) with (evp_finalize E P v a). erewrite bind_done by exact U3.
    destruct X3 as [(-> & E3 & Hh & Hn & Hg)|(-> & E3 & X)].
    2:{ cbn [Z.eqb negb]. erewrite bind_done by apply error_set_eq. assert (S4 : step e [] s3 (add_err e E_RUNTIME_FINALIZE_FAILED s3)) by (apply step_err; exact (st_good _ _ _ _ S3)).
        eexists _, _. split; [reflexivity|]. split; [apply (step_trans e _ [] s s3 _ S03 S4); intros q []|]. split; [exact R03|].
        right. exists (Some p). split; [reflexivity|]. split; [exists fp, c3; auto|]. split; [eapply added_l; [|exact S4]; exact (added_r _ _ _ _ _ S02 E3)|].
        right. destruct X as [X|[X|X]]; [now left|right; now left|]. right. right. apply (failed_mono s2 s3); [apply (st_tries _ _ _ _ S02)|cbn; lia|exact X]. }
    cbn [Z.eqb Pos.eqb negb]. destruct (free_ok e s3 p fp c3 (st_good _ _ _ _ S3) O3) as (s4 & U4 & S4 & N4 & D4 & T4 & E4).
    change (f_free F) with (evp_free P v a). erewrite bind_done by exact U4. cbn [fst snd Z.eqb Pos.eqb negb].
    assert (Same4 : forall q, In q (outs hm) -> nth_error (mem s4) q = nth_error (mem s3) q).
    { intros q Q. apply (st_same _ _ _ _ S4); [intros I; apply (Below q I); now apply Lo|]. specialize (Lo _ Q). pose proof (st_len _ _ _ _ S03). lia. }
    assert (H3 : arg s3 hm n) by (apply (arg_keep e (outs hm) s s3 hm hm n S03); auto).
    eexists _, _. split; [reflexivity|]. split; [apply (step_trans e (outs hm) fp s s3 s4 S03 S4); intros q I L; destruct (Below q I L)|].
    split; [apply (outrel_trans hm s s3 s4 R03); exact (outrel_same hm s3 s4 n H3 Same4)|].
    left. split; [reflexivity|]. split; [|split; [|split; [exact Hh|split; [exact Hn|split; [exact Z2|]]]]].
    - apply (newlive_trans e fp s s3 s4 fp [] N03 S4 N4); [intros q I NI; contradiction|]. intros q y I _ Y L. rewrite (D4 q y I Y) in L. discriminate.
    - intros Rel. rewrite (E4 Rel). congruence.
    - destruct hm as [h|]; [|contradiction]. rewrite <- Hg. cbn. apply bytes_same. apply Same4. now left.
  Qed.

  (* ---------------------------------------------- libhmac_X_calculate *)

  Lemma max_eq : evp_size_max E v = match v with Legacy true => if plat64 E then 2 ^ 32 - 1 else ssize_max E | _ => ssize_max E end.
  Proof. reflexivity. Qed.

  Lemma output_step : forall e s s' hm n, good_state s -> arg s hm n -> step e (outs hm) s s' -> outrel hm s s' -> only_output a s s' hm.
  Proof.
    intros e s s' [h|] n G H S R; intros q c C.
    - split; [|intros ->; now apply R]. intros D. rewrite (st_same _ _ _ _ S); [exact C|intros [X|[]]; now apply D|apply nth_error_Some; congruence].
    - rewrite (st_same _ _ _ _ S); [exact C|intros []|apply nth_error_Some; congruence].
  Qed.
  Lemma newlive_leak : forall s s', newlive s s' [] -> no_leak s s'.
  Proof. intros s s' N q c L Q. destruct (live c) eqn:X; [destruct (N q c L Q X)|reflexivity]. Qed.

  Lemma evp_calculate : forall e buffer size hash n s, good_state s -> arg s buffer size -> arg s hash n ->
    exists r s', calculate_with F a buffer size hash n e s = Done r s' /\ good_state s' /\ no_leak s s' /\ only_output a s s' hash /\
    ((r = 1%Z /\ evp_hash_args E v a buffer size hash n /\ (reliable P a -> errs s' = errs s) /\
      exists bp hp, buffer = Some bp /\ hash = Some hp /\ bytes_at s' hp (digest_size a) = spec_hash a (bytes_at s bp size)) \/
     (r = (-1)%Z /\ errors_added e s s' /\ (some_alloc_failed E s s' \/ ~ reliable P a \/ ~ evp_hash_args E v a buffer size hash n))).
  Proof.
    intros e buffer size hash n s G A H. rewrite calculate_session.
    destruct (session_ok e [(buffer, size)] s hash n G) as (r & s1 & U & S1 & R1 & X); [intros up [<-|[]]; exact A|exact H|].
    erewrite bind_done by exact U. destruct X as [(-> & N1 & E1 & Hh & Hn & Z1 & Hg)|(context & -> & Hc & E1 & X)].
    - eexists _, _. split; [reflexivity|]. split; [exact (st_good _ _ _ _ S1)|]. split; [now apply newlive_leak|]. split; [exact (output_step e s s1 hash n G H S1 R1)|].
      left. split; [reflexivity|]. specialize (Z1 (buffer, size) (or_introl eq_refl)). destruct buffer as [b|]; [|exfalso; apply Z1; now left].
      destruct hash as [h|]; [|contradiction]. split; [|split; [exact E1|]].
      + split; [discriminate|]. split; [discriminate|]. split; [|exact Hn]. rewrite <- max_eq. destruct (N.le_gt_cases size (evp_size_max E v)) as [L|L]; [exact L|]. exfalso. apply Z1. now right.
      + exists b, h. split; [reflexivity|]. split; [reflexivity|]. cbn in Hg. rewrite app_nil_r in Hg. exact Hg.
    - assert (Why : forall s2, (tries s1 <= tries s2)%nat -> some_alloc_failed E s s2 \/ ~ reliable P a \/ ~ evp_hash_args E v a buffer size hash n).
      { intros s2 T. destruct X as [(up & [<-|[]] & X)|[X|[X|X]]].
        - right. right. intros (B1 & B2 & B3 & B4). rewrite <- max_eq in B3. destruct X as [X|X]; cbn in X; [contradiction|lia].
        - right. right. intros (B1 & B2 & B3 & B4). contradiction.
        - right. right. intros (B1 & B2 & B3 & B4). now apply X.
        - destruct (failed_mono s s1 s s2 (le_n _) T X) as [Y|Y]; [now left|right; now left]. }
      destruct context as [p|].
      + destruct Hc as (fp & c & O & N1 & L1). destruct (free_ok false s1 p fp c (st_good _ _ _ _ S1) O) as (s2 & U2 & S2 & N2 & D2 & T2 & _).
        cbn [calculate_on_error_with]. change (f_free F) with (evp_free P v a). erewrite bind_done by exact U2.
        assert (S2' : step e fp s1 s2) by (now apply step_quiet).
        assert (Lo : forall b, In b (outs hash) -> (b < length (mem s))%nat) by (intros b B; destruct hash; [destruct B as [<-|[]]; now apply (accessible_lt _ _ _ H)|destruct B]).
        assert (S02 : step e (outs hash) s s2) by (apply (step_trans e (outs hash) fp s s1 s2 S1 S2'); intros q I L; specialize (L1 _ I); lia).
        assert (R2 : outrel hash s1 s2).
        { apply (outrel_same hash s1 s2 n); [apply (arg_keep e (outs hash) s s1 hash hash n S1); auto|]. intros q Q. apply (st_same _ _ _ _ S2').
          - intros I. specialize (L1 _ I). specialize (Lo _ Q). lia.
          - specialize (Lo _ Q). pose proof (st_len _ _ _ _ S1). lia. }
        eexists _, _. split; [reflexivity|]. split; [exact (st_good _ _ _ _ S2)|]. split; [apply newlive_leak|].
        { apply (newlive_trans e fp s s1 s2 fp [] N1 S2' N2); [intros q I NI; contradiction|]. intros q y I _ Y L. rewrite (D2 q y I Y) in L. discriminate. }
        split; [apply (output_step e s s2 hash n G H S02); exact (outrel_trans hash s s1 s2 R1 R2)|]. right. split; [reflexivity|]. split; [exact (added_l _ _ _ _ _ E1 S2')|]. apply Why. lia.
      + eexists _, _. split; [reflexivity|]. split; [exact (st_good _ _ _ _ S1)|]. split; [now apply newlive_leak|]. split; [exact (output_step e s s1 hash n G H S1 R1)|].
        right. split; [reflexivity|]. split; [exact E1|]. now apply Why.
  Qed.

  Lemma client_session : forall ups hash n e s,
    client F ups hash n e s = (r <- session ups hash n e ;; match r with None => ret true | Some context => client_gives_up F context end) s.
  Proof.
    assert (Fd : forall context ups e s, client_updates F context ups e s = feed context ups e s).
    { intros context ups e. induction ups as [|[b k] ups IH]; intros s; [reflexivity|]. cbn [client_updates feed]. unfold bind. destruct (f_update F context b k e s) as [r s1|]; [|reflexivity].
      destruct (negb (r =? 1)%Z); [reflexivity|apply IH]. }
    intros. unfold client, session. unfold bind, ret. destruct (f_initialize F (Some None) e s) as [r s1|]; [|reflexivity].
    destruct (negb (fst r =? 1)%Z); [destruct (error_set _ _ _); reflexivity|]. rewrite Fd. destruct (feed (snd r) ups e s1) as [[|] s2|]; [|reflexivity|reflexivity].
    cbn [negb]. destruct (f_finalize F _ _ _ e s2) as [r3 s3|]; [|reflexivity].
    destruct (negb (r3 =? 1)%Z); [destruct (error_set _ _ _); reflexivity|]. destruct (f_free F _ e s3) as [r4 s4|]; [|reflexivity].
    destruct (negb (fst r4 =? 1)%Z); [destruct (error_set _ _ _); reflexivity|]. reflexivity.
  Qed.

  Lemma evp_client : forall e ups hash n s, good_state s -> (forall up, In up ups -> arg s (fst up) (snd up)) -> arg s hash n ->
    exists r s', client F ups hash n e s = Done r s' /\ good_state s' /\ no_leak s s' /\ only_output a s s' hash /\
    ((r = true /\ client_args E v a ups hash n /\ (reliable P a -> errs s' = errs s) /\
      exists hp, hash = Some hp /\ bytes_at s' hp (digest_size a) = spec_hash a (all_bytes s ups)) \/
     (r = false /\ errors_added e s s' /\ (some_alloc_failed E s s' \/ ~ reliable P a \/ ~ client_args E v a ups hash n))).
  Proof.
    intros e ups hash n s G A H. rewrite client_session.
    destruct (session_ok e ups s hash n G A H) as (r & s1 & U & S1 & R1 & X).
    erewrite bind_done by exact U. destruct X as [(-> & N1 & E1 & Hh & Hn & Z1 & Hg)|(context & -> & Hc & E1 & X)].
    - eexists _, _. split; [reflexivity|]. split; [exact (st_good _ _ _ _ S1)|]. split; [now apply newlive_leak|]. split; [exact (output_step e s s1 hash n G H S1 R1)|].
      left. split; [reflexivity|]. split; [|split; [exact E1|]].
      + split; [|split; [exact Hh|exact Hn]]. intros up I. specialize (Z1 up I). split; [intros Q; apply Z1; now left|]. rewrite <- max_eq.
        destruct (N.le_gt_cases (snd up) (evp_size_max E v)) as [L|L]; [exact L|]. exfalso. apply Z1. now right.
      + destruct hash as [h|]; [|contradiction]. exists h. split; [reflexivity|]. exact Hg.
    - assert (Why : forall s2, (tries s1 <= tries s2)%nat -> some_alloc_failed E s s2 \/ ~ reliable P a \/ ~ client_args E v a ups hash n).
      { intros s2 T. destruct X as [(up & I & X)|[X|[X|X]]].
        - right. right. intros (B1 & B2 & B3). destruct (B1 up I) as (Y & Z). rewrite <- max_eq in Z. destruct X as [X|X]; [contradiction|lia].
        - right. right. intros (B1 & B2 & B3). contradiction.
        - right. right. intros (B1 & B2 & B3). now apply X.
        - destruct (failed_mono s s1 s s2 (le_n _) T X) as [Y|Y]; [now left|right; now left]. }
      destruct context as [p|].
      + destruct Hc as (fp & c & O & N1 & L1). destruct (free_ok false s1 p fp c (st_good _ _ _ _ S1) O) as (s2 & U2 & S2 & N2 & D2 & T2 & _).
        cbn [client_gives_up]. change (f_free F) with (evp_free P v a). erewrite bind_done by exact U2.
        assert (S2' : step e fp s1 s2) by (now apply step_quiet).
        assert (Lo : forall b, In b (outs hash) -> (b < length (mem s))%nat) by (intros b B; destruct hash; [destruct B as [<-|[]]; now apply (accessible_lt _ _ _ H)|destruct B]).
        assert (S02 : step e (outs hash) s s2) by (apply (step_trans e (outs hash) fp s s1 s2 S1 S2'); intros q I L; specialize (L1 _ I); lia).
        assert (R2 : outrel hash s1 s2).
        { apply (outrel_same hash s1 s2 n); [apply (arg_keep e (outs hash) s s1 hash hash n S1); auto|]. intros q Q. apply (st_same _ _ _ _ S2').
          - intros I. specialize (L1 _ I). specialize (Lo _ Q). lia.
          - specialize (Lo _ Q). pose proof (st_len _ _ _ _ S1). lia. }
        eexists _, _. split; [reflexivity|]. split; [exact (st_good _ _ _ _ S2)|]. split; [apply newlive_leak|].
        { apply (newlive_trans e fp s s1 s2 fp [] N1 S2' N2); [intros q I NI; contradiction|]. intros q y I _ Y L. rewrite (D2 q y I Y) in L. discriminate. }
        split; [apply (output_step e s s2 hash n G H S02); exact (outrel_trans hash s s1 s2 R1 R2)|]. right. split; [reflexivity|]. split; [exact (added_l _ _ _ _ _ E1 S2')|]. apply Why. lia.
      + eexists _, _. split; [reflexivity|]. split; [exact (st_good _ _ _ _ S1)|]. split; [now apply newlive_leak|]. split; [exact (output_step e s s1 hash n G H S1 R1)|].
        right. split; [reflexivity|]. split; [exact E1|]. now apply Why.
  Qed.

  (* ---------------------------------------------- libhmac_X_calculate_hmac *)

  Section Hmac.
  Variables (e : bool) (s : state) (n : N).
  Hypothesis G : good_state s.

  (* how things are at a point of the call: L are the live cells made since s *)
  Record inv (hm : option ptr) (t : state) (L : list nat) : Prop := {
    i_arg : arg s hm n;
    i_step : step e (outs hm) s t;
    i_out : outrel hm s t;
    i_live : newlive s t L;
  }.
  Lemma inv_out_lt : forall hm q, arg s hm n -> In q (outs hm) -> (q < length (mem s))%nat.
  Proof. intros hm b H B. destruct hm; [destruct B as [<-|[]]; now apply (accessible_lt _ _ _ H)|destruct B]. Qed.
  Lemma inv_start : inv None s [].
  Proof. constructor; [exact I|now apply step_refl|exact I|apply newlive_refl]. Qed.
  Lemma inv_hm : forall hm t L, arg s hm n -> inv None t L -> inv hm t L.
  Proof.
    intros hm t L H [_ A _ C]. constructor; [exact H|apply (step_weaken e []); [exact A|intros q []]| |exact C].
    apply (outrel_same hm s t n H). intros q Q. apply (st_same _ _ _ _ A); [intros []|exact (inv_out_lt hm q H Q)].
  Qed.
  Lemma inv_arg : forall hm t L b k, inv hm t L -> arg s b k -> arg t b k.
  Proof. intros hm t L b k [H A B C] X. apply (arg_keep e (outs hm) s t hm b k A); auto. Qed.
  Lemma inv_none_same : forall t L q, inv None t L -> (q < length (mem s))%nat -> nth_error (mem t) q = nth_error (mem s) q.
  Proof. intros t L q [_ A _ _] Q. apply (st_same _ _ _ _ A); [intros []|exact Q]. Qed.
  Lemma inv_good : forall hm t L, inv hm t L -> good_state t.
  Proof. intros hm t L [_ A _ _]. exact (st_good _ _ _ _ A). Qed.
  Lemma inv_step : forall hm t t' W L L', inv hm t L -> step e W t t' -> newlive t t' L' ->
    (forall q, In q W -> (length (mem s) <= q)%nat) -> (forall q, In q L -> ~ In q W -> In q L') ->
    (forall q c, In q W -> nth_error (mem t') q = Some c -> live c = true -> In q L') -> inv hm t' L'.
  Proof.
    intros hm t t' W L L' I S' N HW HL HL'. pose proof I as [H A B C]. constructor.
    - exact H.
    - apply (step_trans e (outs hm) W s t t' A S'). intros q Q X. specialize (HW _ Q). lia.
    - apply (outrel_trans hm s t t' B). apply (outrel_same hm t t' n (inv_arg _ _ _ _ _ I H)). intros q Q. pose proof (inv_out_lt hm q H Q).
      apply (st_same _ _ _ _ S'); [intros X; specialize (HW _ X); lia|]. pose proof (st_len _ _ _ _ A). lia.
    - apply (newlive_trans e W s t t' L L' C S' N HL). intros q c Q _. now apply HL'.
  Qed.
  Lemma inv_out : forall hm t t' L, inv hm t L -> step e (outs hm) t t' -> outrel hm t t' -> newlive t t' L -> inv hm t' L.
  Proof.
    intros hm t t' L [H A B C] S' R N. constructor; [exact H|apply (step_trans e _ _ s t t' A S'); auto|exact (outrel_trans hm s t t' B R)|].
    apply (newlive_trans e (outs hm) s t t' L L C S' N); [auto|]. intros q c Q X. pose proof (inv_out_lt hm q H Q). lia.
  Qed.
  Lemma inv_set : forall hm t L q o, inv hm t L -> good_obj o -> In q L -> (length (mem s) <= q)%nat -> inv hm (set_obj q o t) L.
  Proof.
    intros hm t L q o I O Q Lq. apply (inv_step hm t _ [q] L L I); [apply step_set; [exact (inv_good _ _ _ I)|exact O]|apply newlive_set|intros x [<-|[]]; exact Lq|auto|].
    intros x c [<-|[]] _ _. exact Q.
  Qed.
  Lemma inv_new : forall hm t L k o, inv hm t L -> good_obj o -> inv hm (new_cell k o t) (length (mem t) :: L).
  Proof.
    intros hm t L k o I O. apply (inv_step hm t _ [] L _ I); [apply step_new; [exact (inv_good _ _ _ I)|exact O]| |intros x []|intros q Q _; now right|intros q c []].
    intros q c X Y Z. left. destruct (newlive_new k o t q c X Y Z) as [Q|[]]. exact Q.
  Qed.
  Lemma inv_tick : forall hm t L, inv hm t L -> inv hm (tick t) L.
  Proof. intros hm t L I. apply (inv_step hm t _ [] L L I); [apply step_tick; exact (inv_good _ _ _ I)|exact (newlive_refl t L)|intros x []|auto|intros q c []]. Qed.
  Lemma inv_err : forall hm t L k, inv hm t L -> inv hm (add_err e k t) L.
  Proof. intros hm t L k I. apply (inv_step hm t _ [] L L I); [apply step_err; exact (inv_good _ _ _ I)|exact (newlive_refl t L)|intros x []|auto|intros q c []]. Qed.
  Lemma inv_kill : forall hm t L L' q, inv hm t L -> (length (mem s) <= q)%nat -> (forall x, In x L -> x <> q -> In x L') -> inv hm (kill q t) L'.
  Proof.
    intros hm t L L' q I Lq HL. apply (inv_step hm t _ [q] L L' I); [apply step_kill; exact (inv_good _ _ _ I)|apply newlive_kill|intros x [<-|[]]; exact Lq| |].
    - intros x X Y. apply HL; [exact X|]. intros ->. apply Y. now left.
    - intros x c [<-|[]] X Lv. destruct (nth_error (mem t) q) as [y|] eqn:Yq; [rewrite (kill_nth_same _ _ _ Yq) in X; injection X as <-; discriminate|].
      unfold kill in X. rewrite Yq in X. congruence.
  Qed.
  Lemma inv_len : forall hm t L, inv hm t L -> (length (mem s) <= length (mem t))%nat.
  Proof. intros hm t L [_ A _ _]. exact (st_len _ _ _ _ A). Qed.
  Lemma inv_tries : forall hm t L, inv hm t L -> (tries s <= tries t)%nat.
  Proof. intros hm t L [_ A _ _]. exact (st_tries _ _ _ _ A). Qed.

  Definition cellb (t : state) (q : nat) (k : kind) (l : list N) : Prop := nth_error (mem t) q = Some (mk_cell true k (OBytes l)).
  Lemma cellb_get : forall t q k l, cellb t q k l -> get_obj t q = Some (OBytes l).
  Proof. intros t q k l C. exact (get_nth _ _ _ C eq_refl). Qed.
  Lemma cellb_lt : forall t q k l, cellb t q k l -> (q < length (mem t))%nat.
  Proof. intros t q k l C. apply nth_error_Some. unfold cellb in C. congruence. Qed.
  Lemma cellb_set_same : forall t q k l l', cellb t q k l -> cellb (set_obj q (OBytes l') t) q k l'.
  Proof. intros t q k l l' C. unfold cellb. now rewrite (set_nth_same _ _ _ _ C). Qed.
  Lemma cellb_set_other : forall t q q' o k l, cellb t q k l -> q' <> q -> cellb (set_obj q' o t) q k l.
  Proof. intros t q q' o k l C D. unfold cellb. now rewrite set_nth_other. Qed.
  Lemma cellb_new : forall t k' o q k l, cellb t q k l -> cellb (new_cell k' o t) q k l.
  Proof. intros t k' o q k l C. unfold cellb, new_cell. cbn [mem]. rewrite nth_error_app1; [exact C|exact (cellb_lt _ _ _ _ C)]. Qed.
  Lemma cellb_step : forall W t t' q k l, step e W t t' -> cellb t q k l -> ~ In q W -> cellb t' q k l.
  Proof. intros W t t' q k l S' C D. unfold cellb. rewrite (st_same _ _ _ _ S'); [exact C|exact D|exact (cellb_lt _ _ _ _ C)]. Qed.

  Definition bs : nat := N.to_nat (hmac_block_size a).
  Definition padcell (t : state) (po : option nat) : Prop :=
    match po with None => True | Some q => (length (mem s) <= q)%nat /\ exists l, cellb t q Heap l /\ length l = bs end.

  Lemma zeros_bytes : forall k, Forall is_byte (repeat 0 k).
  Proof. intros k. apply Forall_forall. intros x X. apply repeat_spec in X. subst x. reflexivity. Qed.

  Lemma clear_ok : forall hm t L L' po, inv hm t L -> padcell t po -> (forall x, In x L -> po <> Some x -> In x L') ->
    exists t', clear_and_free a po t = Done tt t' /\ inv hm t' L' /\ tries t' = tries t /\ errs t' = errs t /\
    forall x, po <> Some x -> nth_error (mem t') x = nth_error (mem t) x.
  Proof.
    intros hm t L L' [q|] I C HL.
    2:{ exists t. split; [reflexivity|]. split; [|split; [reflexivity|split; [reflexivity|auto]]]. pose proof I as [H A B N]. constructor; try assumption.
        intros q c X Y Z. apply HL; [now apply (N q c)|discriminate]. }
    destruct C as (Lq & l & C & Ll). unfold clear_and_free. set (t1 := set_obj q (OBytes (repeat 0 bs)) t).
    assert (C1 : cellb t1 q Heap (repeat 0 bs)) by exact (cellb_set_same _ _ _ _ _ C).
    erewrite bind_done.
    2:{ rewrite (mset_ok t (q, 0) l); [|exact (cellb_get _ _ _ _ C)|cbn [snd]; fold bs in *; unfold bs in Ll; lia]. cbn [fst snd]. fold bs.
        rewrite put_all by (rewrite repeat_length; congruence). reflexivity. }
    fold t1. rewrite (mfree_ok _ _ _ C1). exists (kill q t1). split; [reflexivity|].
    assert (I1 : inv hm t1 (q :: L)).
    { apply inv_set; [|apply zeros_bytes|now left|exact Lq]. pose proof I as [H A B N]. constructor; try assumption. intros x c X Y Z. right. now apply (N x c). }
    split; [apply (inv_kill hm t1 (q :: L)); [exact I1|exact Lq|]|].
    { intros x [X|X] D; [congruence|]. apply HL; [exact X|congruence]. }
    split; [now rewrite kill_tries; unfold t1; rewrite set_obj_tries|]. split; [rewrite kill_errs; apply set_obj_errs|].
    intros x D. rewrite kill_nth_other by congruence. apply set_nth_other. congruence.
  Qed.

  Definition ctxcell (t : state) (context : option nat) (fp : list nat) : Prop :=
    match context with None => fp = [] | Some p => exists c, own v t p fp c end /\ forall q, In q fp -> (length (mem s) <= q)%nat.

  Lemma own_heap : forall t p fp c q, own v t p fp c -> In q fp -> exists o, nth_error (mem t) q = Some (mk_cell true Heap o).
  Proof.
    intros t p fp c q O Q. destruct v; cbn in O; try (destruct O as (-> & O); destruct Q as [<-|[]]; eauto).
    destruct O as (q' & -> & D & A & B). destruct Q as [<-|[<-|[]]]; eauto.
  Qed.

  Lemma on_error_ok : forall hm t L kh khl context fp op ip kd, inv hm t L -> errors_added e s t -> cellb t kh Stack khl -> ctxcell t context fp ->
    padcell t op -> padcell t ip -> padcell t kd ->
    (forall q, In q fp -> op <> Some q /\ ip <> Some q /\ kd <> Some q) ->
    (forall q, op = Some q -> ip <> Some q /\ kd <> Some q) -> (forall q, ip = Some q -> kd <> Some q) ->
    (forall q, In q L -> q = kh \/ In q fp \/ op = Some q \/ ip = Some q \/ kd = Some q) ->
    exists t', hmac_on_error_with F a context op ip kd t = Done (-1)%Z t' /\ inv hm t' [kh] /\ errors_added e s t' /\ tries t' = tries t /\ cellb t' kh Stack khl.
  Proof.
    intros hm t L kh khl context fp op ip kd I Er Kh [Cx Lf] Po Pi Pk Df Do Di HL.
    assert (NotK : forall t po, cellb t kh Stack khl -> padcell t po -> po <> Some kh).
    { intros u po U V ->. destruct V as (_ & l & V & _). unfold cellb in *. congruence. }
    assert (X : exists t1, (match context with Some p => f_free F (Some (Some p)) false ;;; ret tt | None => ret tt end) t = Done tt t1 /\
      inv hm t1 (kh :: (match op with Some q => [q] | None => [] end) ++ (match ip with Some q => [q] | None => [] end) ++ (match kd with Some q => [q] | None => [] end)) /\
      errors_added e s t1 /\ tries t1 = tries t /\ forall q, ~ In q fp -> (q < length (mem t))%nat -> nth_error (mem t1) q = nth_error (mem t) q).
    { destruct context as [p|].
      - destruct Cx as (c & O). destruct (free_ok false t p fp c (inv_good _ _ _ I) O) as (t1 & U & S1 & N1 & D1 & T1 & _).
        change (f_free F) with (evp_free P v a). erewrite bind_done by exact U. exists t1. split; [reflexivity|].
        assert (S1' : step e fp t t1) by (now apply step_quiet).
        split; [|split; [exact (added_l _ _ _ _ _ Er S1')|split; [exact T1|exact (st_same _ _ _ _ S1')]]].
        eapply (inv_step hm t t1 fp L _ I S1'); [intros q y Q Y Z; destruct (N1 q y Q Y Z)|exact Lf| |].
        + intros q Q NQ. destruct (HL q Q) as [->|[Y|[Y|[Y|Y]]]]; [now left|contradiction| | |]; right; rewrite Y; rewrite ?in_app_iff; cbn; auto.
        + intros q y Q Y Lv. rewrite (D1 q y Q Y) in Lv. discriminate.
      - subst fp. exists t. split; [reflexivity|]. split; [|split; [exact Er|split; [reflexivity|auto]]]. pose proof I as [H A B N]. constructor; try assumption.
        intros q y Q Y Z. destruct (HL q (N q y Q Y Z)) as [->|[[]|[W|[W|W]]]]; [now left| | |]; right; rewrite W; rewrite ?in_app_iff; cbn; auto. }
    destruct X as (t1 & U1 & I1 & E1 & T1 & Sm1). unfold hmac_on_error_with. erewrite bind_done by exact U1.
    assert (Keep : forall po, padcell t po -> (forall q, po = Some q -> ~ In q fp) -> padcell t1 po).
    { intros [q|] V W; [|exact Logic.I]. destruct V as (V & l & V1 & V2). split; [exact V|]. exists l. split; [|exact V2]. unfold cellb. rewrite Sm1; [exact V1|now apply W|exact (cellb_lt _ _ _ _ V1)]. }
    assert (Po1 : padcell t1 op) by (apply Keep; [exact Po|intros q -> Q; destruct (Df q Q) as (Y & _); congruence]).
    assert (Pi1 : padcell t1 ip) by (apply Keep; [exact Pi|intros q -> Q; destruct (Df q Q) as (_ & Y & _); congruence]).
    assert (Pk1 : padcell t1 kd) by (apply Keep; [exact Pk|intros q -> Q; destruct (Df q Q) as (_ & _ & Y); congruence]).
    assert (Kh1 : cellb t1 kh Stack khl).
    { unfold cellb. rewrite Sm1; [exact Kh| |exact (cellb_lt _ _ _ _ Kh)]. intros Q. destruct context as [p|]; [|subst fp; destruct Q]. destruct Cx as (c & O).
      destruct (own_heap _ _ _ _ _ O Q) as (o & Y). unfold cellb in Kh. congruence. }
    destruct (clear_ok hm t1 _ (kh :: (match ip with Some q => [q] | None => [] end) ++ (match kd with Some q => [q] | None => [] end)) op I1 Po1) as (t2 & U2 & I2 & T2 & E2 & Sm2).
    { intros x [X|X] D; [now left|]. right. rewrite !in_app_iff in *. destruct X as [X|[X|X]]; auto. destruct op; [destruct X as [X|[]]; congruence|destruct X]. }
    assert (Keep2 : forall po, padcell t1 po -> (forall q, po = Some q -> op <> Some q) -> padcell t2 po).
    { intros [q|] V W; [|exact Logic.I]. destruct V as (V & l & V1 & V2). split; [exact V|]. exists l. split; [|exact V2]. unfold cellb. rewrite Sm2; [exact V1|now apply W]. }
    assert (Pi2 : padcell t2 ip) by (apply Keep2; [exact Pi1|intros q -> Q; destruct (Do q Q) as (Y & _); congruence]).
    assert (Pk2 : padcell t2 kd) by (apply Keep2; [exact Pk1|intros q -> Q; destruct (Do q Q) as (_ & Y); congruence]).
    assert (Kh2 : cellb t2 kh Stack khl) by (unfold cellb; rewrite Sm2; [exact Kh1|exact (NotK t1 op Kh1 Po1)]).
    erewrite bind_done by exact U2.
    destruct (clear_ok hm t2 _ (kh :: (match kd with Some q => [q] | None => [] end)) ip I2 Pi2) as (t3 & U3 & I3 & T3 & E3 & Sm3).
    { intros x [X|X] D; [now left|]. right. rewrite !in_app_iff in *. destruct X as [X|X]; auto. destruct ip; [destruct X as [X|[]]; congruence|destruct X]. }
    assert (Pk3 : padcell t3 kd).
    { destruct kd as [q|]; [|exact Logic.I]. destruct Pk2 as (V & l & V1 & V2). split; [exact V|]. exists l. split; [|exact V2]. unfold cellb. rewrite Sm3; [exact V1|]. intros Q. now destruct (Di q Q). }
    assert (Kh3 : cellb t3 kh Stack khl) by (unfold cellb; rewrite Sm3; [exact Kh2|exact (NotK t2 ip Kh2 Pi2)]).
    erewrite bind_done by exact U3.
    destruct (clear_ok hm t3 _ [kh] kd I3 Pk3) as (t4 & U4 & I4 & T4 & E4 & Sm4).
    { intros x [X|X] D; [now left|]. destruct kd; [destruct X as [X|[]]; congruence|destruct X]. }
    erewrite bind_done by exact U4. exists t4. split; [reflexivity|]. split; [exact I4|]. split; [|split; [congruence|]].
    - unfold errors_added in *. rewrite E4, E3, E2. exact E1.
    - unfold cellb. rewrite Sm4; [exact Kh3|exact (NotK t3 kd Kh3 Pk3)].
  Qed.

  Lemma hash_size_small : hash_size_ok (digest_size a).
  Proof. unfold hash_size_ok. pose proof (ssize_ge E). split; [lia|]. destruct v, a; cbn [digest_size]; lia. Qed.
  Lemma max_ge : block_size a <= evp_size_max E v.
  Proof. pose proof (ssize_ge E). unfold evp_size_max. destruct v as [[|]| |]; [destruct (plat64 E)| | |]; destruct a; cbn [block_size]; lia. Qed.
  Lemma block_eq : hmac_block_size a = block_size a.
  Proof. destruct a; reflexivity. Qed.

  Definition key_bad (key_size : N) : Prop := block_size a < key_size /\ evp_size_max E v < key_size.

  Lemma key_session : forall kh kd kp ks t, block_size a < ks -> hmac_key_data_with F a kh kd kp ks e t =
    (r <- session [(Some kp, ks)] (Some (kh, 0)) (digest_size a) e ;;
     match r with Some context => ret (Some context) | None =>
       (if digest_size a <? block_size a then mset (kd, digest_size a) 0 (block_size a - digest_size a) else ret tt);;; mcopy (kd, 0) (kh, 0) (digest_size a);;; ret None end) t.
  Proof.
    intros kh kd kp ks t L. unfold hmac_key_data_with. rewrite block_eq, digest_eq. destruct (N.leb_spec ks (block_size a)) as [X|_]; [lia|].
    unfold session, feed. unfold bind, ret. destruct (f_initialize F (Some None) e t) as [r1 u1|]; [|reflexivity].
    destruct (negb (fst r1 =? 1)%Z); [destruct (error_set _ _ _); reflexivity|]. destruct (f_update F _ _ _ e u1) as [r2 u2|]; [|reflexivity].
    destruct (negb (r2 =? 1)%Z); [destruct (error_set _ _ _); reflexivity|]. cbn [negb]. destruct (f_finalize F _ _ _ e u2) as [r3 u3|]; [|reflexivity].
    destruct (negb (r3 =? 1)%Z); [destruct (error_set _ _ _); reflexivity|]. destruct (f_free F _ e u3) as [r4 u4|]; [|reflexivity].
    destruct (negb (fst r4 =? 1)%Z); [destruct (error_set _ _ _); reflexivity|]. reflexivity.
  Qed.

  Lemma key_ok : forall t kh khl kd kdl kp key_size, inv None t [kd; kh] -> (reliable P a -> errs t = errs s) ->
    cellb t kh Stack khl -> length khl = N.to_nat (digest_size a) -> (length (mem s) <= kh)%nat ->
    cellb t kd Heap kdl -> length kdl = bs -> (length (mem s) <= kd)%nat -> Forall is_byte kdl -> accessible s kp key_size ->
    exists r t', hmac_key_data_with F a kh kd kp key_size e t = Done r t' /\ (exists khl', cellb t' kh Stack khl') /\
    ((r = None /\ inv None t' [kd; kh] /\ (reliable P a -> errs t' = errs s) /\ ~ key_bad key_size /\
      cellb t' kd Heap (hmac_key (spec_hash a) bs (bytes_at s kp key_size))) \/
     (exists context fp, r = Some context /\ inv None t' (kd :: kh :: fp) /\ ctxcell t' context fp /\ ~ In kd fp /\ cellb t' kd Heap kdl /\
      errors_added e s t' /\ (key_bad key_size \/ failed s t'))).
  Proof.
    intros t kh khl kd kdl kp ks I Er Kh Lkh Gkh Kd Lkd Gkd Bkd A.
    pose proof (accessible_lt _ _ _ A) as Lk.
    assert (Sk : nth_error (mem t) (fst kp) = nth_error (mem s) (fst kp)) by (apply (inv_none_same t _ _ I Lk)).
    assert (At : accessible t kp ks) by (apply (accessible_same s); assumption).
    assert (Bt : bytes_at t kp ks = bytes_at s kp ks) by (now apply bytes_same).
    pose proof (bytes_at_length _ _ _ A) as LK. set (K := bytes_at s kp ks) in *.
    assert (BK : Forall is_byte K) by (now apply bytes_bytes).
    assert (Dkk : kd <> kh) by (intros ->; unfold cellb in *; congruence).
    pose proof block_eq as Bq. unfold bs in Lkd |- *. rewrite Bq in *.
    destruct (N.le_gt_cases ks (block_size a)) as [Sh|Lo].
    - unfold hmac_key_data_with. rewrite Bq, digest_eq. destruct (N.leb_spec ks (block_size a)) as [_|]; [|lia]. destruct A as (lk & A & Ak). assert (Ag : get_obj t (fst kp) = Some (OBytes lk)) by (rewrite (get_same s) by exact Sk; exact A).
      erewrite bind_done by (eapply mcopy_ok; [exact Ag|exact (cellb_get _ _ _ _ Kd)|cbn [fst]; lia|exact Ak|cbn [snd]; lia]). cbn [fst snd]. rewrite Bt.
      assert (P1 : length (put kdl 0 K) = length kdl) by (apply put_length; lia).
      set (t1 := set_obj kd (OBytes (put kdl 0 K)) t). assert (C1 : cellb t1 kd Heap (put kdl 0 K)) by exact (cellb_set_same _ _ _ _ _ Kd).
      erewrite bind_done by (eapply (mset_ok t1 (kd, ks)); [exact (cellb_get _ _ _ _ C1)|cbn [snd]; rewrite P1; lia]). cbn [fst snd].
      assert (Q : put (put kdl 0 K) ks (repeat 0 (N.to_nat (block_size a - ks))) = hmac_key (spec_hash a) (N.to_nat (block_size a)) K).
      { replace ks with (N.of_nat (length K)) at 1 by lia. rewrite put_two by (rewrite repeat_length; lia). unfold hmac_key.
        replace (N.to_nat (block_size a) <? length K)%nat with false by (symmetry; apply Nat.ltb_ge; lia). do 2 f_equal. lia. }
      rewrite Q. set (K0 := hmac_key (spec_hash a) (N.to_nat (block_size a)) K) in *.
      assert (BK0 : Forall is_byte K0).
      { unfold K0, hmac_key. replace (N.to_nat (block_size a) <? length K)%nat with false by (symmetry; apply Nat.ltb_ge; lia). apply Forall_app. split; [exact BK|apply zeros_bytes]. }
      unfold t1 in *. rewrite set_set. eexists _, _. split; [reflexivity|]. split; [exists khl; apply cellb_set_other; [exact Kh|exact Dkk]|].
      left. split; [reflexivity|]. split; [apply inv_set; [exact I|exact BK0|now left|exact Gkd]|]. split; [intros Rel; rewrite set_obj_errs; now apply Er|].
      split; [intros (X & _); lia|]. exact (cellb_set_same _ _ _ _ _ Kd).
    - assert (Akh : accessible t (kh, 0) (digest_size a)) by (exists khl; split; [exact (cellb_get _ _ _ _ Kh)|cbn [snd]; lia]).
      destruct (session_ok e [(Some kp, ks)] t (Some (kh, 0)) (digest_size a) (inv_good _ _ _ I)) as (r & t1 & U & S1 & R1 & X); [intros up [<-|[]]; exact At|exact Akh|].
      rewrite key_session by exact Lo. erewrite bind_done by exact U.
      destruct (R1 _ Kh) as (lh & lh' & H1 & H2 & H3 & H4). cbn [content live knd fst snd] in H1, H2, H3. injection H1 as <-.
      assert (Kd1 : cellb t1 kd Heap kdl) by (apply (cellb_step _ _ _ _ _ _ S1 Kd); cbn; intros [Y|[]]; congruence).
      assert (Gt1 : good_state t1) by exact (st_good _ _ _ _ S1).
      destruct X as [(-> & N1 & E1 & _ & Hn & Z1 & Hg)|(context & -> & Hc & E1 & X)].
      + cbn in Hg. rewrite app_nil_r, Bt in Hg. unfold bytes_at in Hg. cbn [fst snd] in Hg. rewrite (get_nth _ _ _ H2 eq_refl) in Hg. cbn [content] in Hg.
        change (N.to_nat 0) with 0%nat in Hg. cbn [skipn] in Hg. rewrite firstn_all2 in Hg by lia.
        assert (Dlb : digest_size a < block_size a) by (destruct a; reflexivity).
        assert (I1 : inv None t1 [kd; kh]).
        { apply (inv_step None t t1 [kh] _ _ I S1); [intros q y Y Z W; destruct (N1 q y Y Z W)|intros q [<-|[]]; exact Gkh|auto|intros q y [<-|[]] _ _; right; now left]. }
        destruct (N.ltb_spec (digest_size a) (block_size a)) as [_|]; [|lia].
        erewrite bind_done by (eapply (mset_ok t1 (kd, digest_size a)); [exact (cellb_get _ _ _ _ Kd1)|cbn [snd]; lia]). cbn [fst snd].
        set (zs := repeat 0 (N.to_nat (block_size a - digest_size a))). set (t2 := set_obj kd (OBytes (put kdl (digest_size a) zs)) t1).
        assert (P1 : length (put kdl (digest_size a) zs) = length kdl) by (apply put_length; unfold zs; rewrite repeat_length; lia).
        assert (Kd2 : cellb t2 kd Heap (put kdl (digest_size a) zs)) by exact (cellb_set_same _ _ _ _ _ Kd1).
        assert (Kh2 : cellb t2 kh Stack lh') by (apply cellb_set_other; [exact H2|exact Dkk]).
        erewrite bind_done by (eapply mcopy_ok; [exact (cellb_get _ _ _ _ Kh2)|exact (cellb_get _ _ _ _ Kd2)|cbn [fst]; lia|cbn [snd]; lia|cbn [snd]; rewrite P1; lia]). cbn [fst snd].
        assert (Bh : bytes_at t2 (kh, 0) (digest_size a) = lh').
        { unfold bytes_at. cbn [fst snd]. rewrite (cellb_get _ _ _ _ Kh2). change (N.to_nat 0) with 0%nat. cbn [skipn]. apply firstn_all2. lia. }
        rewrite Bh. pose proof (spec_length a K) as SL.
        assert (Q : put (put kdl (digest_size a) zs) 0 lh' = hmac_key (spec_hash a) (N.to_nat (block_size a)) K).
        { replace (digest_size a) with (N.of_nat (length lh')) by lia. rewrite put_two' by (unfold zs; rewrite repeat_length; lia). unfold hmac_key.
          replace (N.to_nat (block_size a) <? length K)%nat with true by (symmetry; apply Nat.ltb_lt; lia). rewrite <- Hg. unfold zs. do 2 f_equal. lia. }
        rewrite Q. unfold t2 in *. rewrite set_set. eexists _, _. split; [reflexivity|]. split; [exists lh'; apply cellb_set_other; [exact H2|exact Dkk]|].
        left. split; [reflexivity|]. split; [|split; [intros Rel; rewrite set_obj_errs, (E1 Rel); now apply Er|split; [|exact (cellb_set_same _ _ _ _ _ Kd1)]]].
        * apply inv_set; [exact I1| |now left|exact Gkd]. unfold good_obj. rewrite <- Q. pose proof (Gt1 _ _ (get_nth _ _ _ H2 eq_refl)) as Bl.
          unfold put at 1. apply Forall_app. split; [constructor|]. apply Forall_app. split; [exact Bl|]. apply Forall_skipn. unfold put.
          apply Forall_app. split; [now apply Forall_firstn|]. apply Forall_app. split; [apply zeros_bytes|now apply Forall_skipn].
        * intros (_ & Y). apply (Z1 (Some kp, ks) (or_introl eq_refl)). right. exact Y.
      + exists (Some context), t1. split; [reflexivity|]. split; [exists lh'; exact H2|]. right.
        assert (Fp : exists fp, ctxcell t1 context fp /\ newlive t t1 fp /\ forall q, In q fp -> (length (mem t) <= q)%nat).
        { pose proof (inv_len _ _ _ I) as Li. destruct context as [p|].
          - destruct Hc as (fp & c & O & N1 & L1). exists fp. split; [split; [exists c; exact O|intros q Q; specialize (L1 _ Q); lia]|]. now split.
          - exists []. split; [split; [reflexivity|intros q []]|]. split; [exact Hc|intros q []]. }
        destruct Fp as (fp & Cx & N1 & L1). exists context, fp. split; [reflexivity|]. split; [|split; [exact Cx|split; [|split; [exact Kd1|split]]]].
        * apply (inv_step None t t1 [kh] [kd; kh] _ I S1); [intros q y Y Z W; right; right; now apply (N1 q y)|intros q [<-|[]]; exact Gkh|intros q [<-|[<-|[]]] _; cbn; auto|intros q y [<-|[]] _ _; cbn; auto].
        * intros Q. specialize (L1 _ Q). pose proof (cellb_lt _ _ _ _ Kd). lia.
        * apply (added_r e (outs None) s t t1); [exact (i_step _ _ _ I)|exact E1].
        * destruct X as [(up & [<-|[]] & [X|X])|[X|[X|X]]]; [discriminate X|left; split; [exact Lo|exact X]|discriminate X|exfalso; apply X; exact hash_size_small|].
          right. apply (failed_mono t t1); [exact (inv_tries _ _ _ I)|lia|exact X].
  Qed.

  Lemma alloc_ok_inv : forall hm t L k, inv hm t L -> alloc_ok E (tries t) = true ->
    exists l t', allocate_bytes E k t = Done (Some (length (mem t))) t' /\ inv hm t' (length (mem t) :: L) /\ cellb t' (length (mem t)) Heap l /\ length l = N.to_nat k /\
    Forall is_byte l /\ errs t' = errs t /\ (forall q, (q < length (mem t))%nat -> nth_error (mem t') q = nth_error (mem t) q) /\ (tries t <= tries t')%nat.
  Proof.
    intros hm t L k I A. set (l := junk_bytes E (length (mem t)) k). exists l, (tick (new_cell Heap (OBytes l) t)).
    split; [exact (allocate_ok _ E t A)|]. split; [apply inv_tick, inv_new; [exact I|apply junk_byte]|]. split; [exact (nth_new Heap (OBytes l) t)|].
    split; [apply junk_length|]. split; [apply junk_byte|]. split; [reflexivity|]. split; [|cbn; lia]. intros q Q. unfold tick, new_cell. cbn [mem]. now rewrite nth_error_app1.
  Qed.
  Lemma alloc_no_inv : forall hm t L k, inv hm t L -> alloc_ok E (tries t) = false ->
    allocate_bytes E k t = Done None (tick t) /\ inv hm (tick t) L /\ some_alloc_failed E s (tick t).
  Proof.
    intros hm t L k I A. split; [exact (allocate_no _ E t A)|]. split; [now apply inv_tick|]. exists (tries t). split; [|exact A].
    pose proof (inv_tries _ _ _ I). cbn. lia.
  Qed.
  Lemma added_inv : forall hm t L k, inv hm t L -> errors_added e s (add_err e k t).
  Proof. intros hm t L k I. apply (added_r e (outs hm) s t); [exact (i_step _ _ _ I)|apply added_one]. Qed.
  Lemma mset_cell : forall t q k l x m, cellb t q k l -> length l = N.to_nat m -> mset (q, 0) x m t = Done tt (set_obj q (OBytes (repeat x (N.to_nat m))) t).
  Proof. intros t q k l x m C L. rewrite (mset_ok t (q, 0) l); [|exact (cellb_get _ _ _ _ C)|cbn [snd]; lia]. cbn [fst snd]. rewrite put_all by (rewrite repeat_length; congruence). reflexivity. Qed.
  Lemma repeat_bytes : forall x k, x < 256 -> Forall is_byte (repeat x k).
  Proof. intros x k X. apply Forall_forall. intros y Y. apply repeat_spec in Y. now subst y. Qed.
  Lemma allocd_mono : forall t t', some_alloc_failed E s t -> (tries t <= tries t')%nat -> some_alloc_failed E s t'.
  Proof. intros t t' (i & X & Y) L. exists i. split; [lia|exact Y]. Qed.

  Definition why (args : Prop) (t : state) : Prop := some_alloc_failed E s t \/ ~ reliable P a \/ ~ args.
  Lemma failed_why : forall A t t', failed s t -> (tries t <= tries t')%nat -> why A t'.
  Proof. intros A t t' [X|X] L; [left; exact (allocd_mono _ _ X L)|right; now left]. Qed.
  Definition bad_end (args : Prop) (hm : option ptr) (kh : nat) (t : state) : Prop :=
    inv hm t [kh] /\ (exists khl, cellb t kh Stack khl) /\ errors_added e s t /\ why args t.
  Definition good_end (args : Prop) (key : option ptr) (key_size : N) (buffer : option ptr) (size : N) (hm : option ptr) (kh : nat) (t : state) : Prop :=
    inv hm t [kh] /\ (exists khl, cellb t kh Stack khl) /\ (reliable P a -> errs t = errs s) /\ args /\
    exists kp bp hp, key = Some kp /\ buffer = Some bp /\ hm = Some hp /\ bytes_at t hp (digest_size a) = spec_hmac a (bytes_at s kp key_size) (bytes_at s bp size).

  Lemma body_ok : forall key key_size buffer size hm t kh khl, arg s key key_size -> arg s buffer size -> arg s hm n -> inv None t [kh] -> errs t = errs s -> cellb t kh Stack khl -> length khl = N.to_nat (digest_size a) -> (length (mem s) <= kh)%nat ->
    exists r t', calculate_hmac_body_with E F a kh key key_size buffer size hm n e t = Done r t' /\ 
    ((r = 1%Z /\ good_end (evp_hmac_args E v a key key_size buffer size hm n) key key_size buffer size hm kh t') \/ (r = (-1)%Z /\ bad_end (evp_hmac_args E v a key key_size buffer size hm n) hm kh t')).
  Proof.
    intros key key_size buffer size hm t kh khl AK AB AH I Er Kh Lkh Gkh. unfold calculate_hmac_body_with. rewrite block_eq, digest_eq.
    assert (Early : forall k, ~ evp_hmac_args E v a key key_size buffer size hm n -> bad_end (evp_hmac_args E v a key key_size buffer size hm n) hm kh (add_err e k t)).
    { intros k X. split; [apply inv_err, inv_hm; [exact AH|exact I]|]. split; [exists khl; exact Kh|]. split; [exact (added_inv _ _ _ _ I)|]. right. now right. }
    destruct key as [kp|].
    2:{ eexists _, _. split; [apply fail_eq|]. right. split; [reflexivity|]. apply Early. intros (X & _). now apply X. }
    destruct (N.ltb_spec (ssize_max E) key_size) as [Kx|Kx].
    { eexists _, _. split; [apply fail_eq|]. right. split; [reflexivity|]. apply Early. intros (_ & X & _). lia. }
    destruct (N.ltb_spec n (digest_size a)) as [Hx|Hx].
    { eexists _, _. split; [apply fail_eq|]. right. split; [reflexivity|]. apply Early. intros (_ & _ & _ & _ & _ & _ & X). lia. }
    clear Early.
    (* key_data *)
    destruct (alloc_ok E (tries t)) eqn:A1.
    2:{ destruct (alloc_no_inv None t _ (block_size a) I A1) as (U & I1 & X). erewrite bind_done by exact U. cbv iota beta. erewrite bind_done by apply error_set_eq.
        eexists _, _. split; [reflexivity|]. right. split; [reflexivity|]. split; [apply inv_err, inv_hm; [exact AH|exact I1]|]. split; [exists khl; exact Kh|].
        split; [exact (added_inv _ _ _ _ I1)|]. now left. }
    destruct (alloc_ok_inv None t _ (block_size a) I A1) as (kdl & t1 & U & I1 & Kd1 & Lkd & Bkd & E1 & Sm1 & T1). set (kd := length (mem t)) in *.
    erewrite bind_done by exact U. cbv iota beta. clear U.
    assert (Gkd : (length (mem s) <= kd)%nat) by exact (inv_len _ _ _ I).
    assert (Kh1 : cellb t1 kh Stack khl) by (unfold cellb; rewrite Sm1; [exact Kh|exact (cellb_lt _ _ _ _ Kh)]).
    assert (Dkk : kd <> kh) by (intros X; unfold cellb in *; rewrite X in *; congruence).
    assert (Lb : length kdl = bs) by (unfold bs; now rewrite block_eq).
    destruct (key_ok t1 kh khl kd kdl kp key_size I1) as (r & t2 & U & (khl2 & Kh2) & X); try assumption; [intros _; congruence|].
    erewrite bind_done by exact U. cbv iota beta. clear U.
    destruct X as [(-> & I2 & E2 & NB & Kd2)|(context & fp & -> & I2 & Cx & Nfp & Kd2 & E2 & X)].
    2:{ destruct (on_error_ok hm t2 (kd :: kh :: fp) kh khl2 context fp None None (Some kd)) as (t3 & U & I3 & E3 & T3 & Kh3).
        - apply inv_hm; [exact AH|exact I2].
        - exact E2.
        - exact Kh2.
        - exact Cx.
        - exact Logic.I.
        - exact Logic.I.
        - split; [exact Gkd|]. exists kdl. now split.
        - intros q Q. split; [discriminate|]. split; [discriminate|]. intros Y. injection Y as <-. contradiction.
        - discriminate.
        - discriminate.
        - intros q [<-|[<-|Q]]; auto.
        - eexists _, _. split; [exact U|]. right. split; [reflexivity|]. split; [exact I3|]. split; [now exists khl2|]. split; [exact E3|].
          destruct X as [(X & Y)|X]; [|apply (failed_why _ t2 t3 X); lia]. right. right. intros (_ & _ & Z & _). rewrite <- max_eq in Z. specialize (Z X). lia. }
    set (K0 := hmac_key (spec_hash a) bs (bytes_at s kp key_size)) in *.
    assert (BK0 : Forall is_byte K0) by exact (inv_good _ _ _ I2 _ _ (cellb_get _ _ _ _ Kd2)).
    assert (LK0 : length K0 = bs).
    { unfold K0, hmac_key. pose proof (spec_length a (bytes_at s kp key_size)) as SL. pose proof (hs_lt_block a). rewrite digest_eq in *. unfold bs in *. rewrite block_eq in *.
      destruct (Nat.ltb_spec (N.to_nat (block_size a)) (length (bytes_at s kp key_size))); rewrite app_length, repeat_length; lia. }
    (* inner_padding *)
    destruct (alloc_ok E (tries t2)) eqn:A2.
    2:{ destruct (alloc_no_inv None t2 _ (block_size a) I2 A2) as (U & I3 & X). erewrite bind_done by exact U. cbv iota beta. erewrite bind_done by apply error_set_eq.
        destruct (on_error_ok hm (add_err e E_MEMORY_INSUFFICIENT (tick t2)) [kd; kh] kh khl2 None [] None None (Some kd)) as (t4 & U4 & I4 & E4 & T4 & Kh4).
        - apply inv_err, inv_hm; [exact AH|exact I3].
        - exact (added_inv _ _ _ _ I3).
        - exact Kh2.
        - split; [reflexivity|intros q []].
        - exact Logic.I.
        - exact Logic.I.
        - split; [exact Gkd|]. exists K0. now split.
        - intros q [].
        - discriminate.
        - discriminate.
        - intros q [<-|[<-|[]]]; auto.
        - eexists _, _. split; [exact U4|]. right. split; [reflexivity|]. split; [exact I4|]. split; [now exists khl2|]. split; [exact E4|]. left. apply (allocd_mono (tick t2)); [exact X|]. rewrite T4. cbn. lia. }
    destruct (alloc_ok_inv None t2 _ (block_size a) I2 A2) as (il & t3 & U & I3 & Ip3 & Lil & Bil & E3 & Sm3 & T3). set (ip := length (mem t2)) in *.
    erewrite bind_done by exact U. cbv iota beta. clear U. erewrite bind_done by (eapply mset_cell; [exact Ip3|exact Lil]).
    assert (Gip : (length (mem s) <= ip)%nat) by exact (inv_len _ _ _ I2).
    assert (Dki : (kd < ip)%nat) by exact (cellb_lt _ _ _ _ Kd2). assert (Dhi : (kh < ip)%nat) by exact (cellb_lt _ _ _ _ Kh2).
    set (i36 := repeat 54 (N.to_nat (block_size a))). set (t4 := set_obj ip (OBytes i36) t3).
    assert (I4 : inv None t4 [ip; kd; kh]) by (apply inv_set; [exact I3|now apply repeat_bytes|now left|exact Gip]).
    assert (Ip4 : cellb t4 ip Heap i36) by exact (cellb_set_same _ _ _ _ _ Ip3).
    assert (Kd4 : cellb t4 kd Heap K0) by (apply cellb_set_other; [unfold cellb; rewrite Sm3 by lia; exact Kd2|lia]).
    assert (Kh4 : cellb t4 kh Stack khl2) by (apply cellb_set_other; [unfold cellb; rewrite Sm3 by lia; exact Kh2|lia]).
    assert (E4 : reliable P a -> errs t4 = errs s) by (intros Rel; unfold t4; rewrite set_obj_errs, E3; now apply E2).
    assert (Li : length i36 = bs) by (unfold i36, bs; now rewrite repeat_length, block_eq).
    (* outer_padding *)
    destruct (alloc_ok E (tries t4)) eqn:A3.
    2:{ destruct (alloc_no_inv None t4 _ (block_size a) I4 A3) as (U & I5 & X). erewrite bind_done by exact U. cbv iota beta. erewrite bind_done by apply error_set_eq.
        destruct (on_error_ok hm (add_err e E_MEMORY_INSUFFICIENT (tick t4)) [ip; kd; kh] kh khl2 None [] None (Some ip) (Some kd)) as (t6 & U6 & I6 & E6 & T6 & Kh6).
        - apply inv_err, inv_hm; [exact AH|exact I5].
        - exact (added_inv _ _ _ _ I5).
        - exact Kh4.
        - split; [reflexivity|intros q []].
        - exact Logic.I.
        - split; [exact Gip|]. exists i36. now split.
        - split; [exact Gkd|]. exists K0. now split.
        - intros q [].
        - discriminate.
        - intros q Q. injection Q as <-. intros Q. injection Q as Q. lia.
        - intros q [<-|[<-|[<-|[]]]]; auto.
        - eexists _, _. split; [exact U6|]. right. split; [reflexivity|]. split; [exact I6|]. split; [now exists khl2|]. split; [exact E6|]. left. apply (allocd_mono (tick t4)); [exact X|]. rewrite T6. cbn. lia. }
    destruct (alloc_ok_inv None t4 _ (block_size a) I4 A3) as (ol & t5 & U & I5 & Op5 & Lol & Bol & E5 & Sm5 & T5). set (op := length (mem t4)) in *.
    erewrite bind_done by exact U. cbv iota beta. clear U. erewrite bind_done by (eapply mset_cell; [exact Op5|exact Lol]).
    assert (Gop : (length (mem s) <= op)%nat) by exact (inv_len _ _ _ I4).
    assert (Dko : (kd < op)%nat) by exact (cellb_lt _ _ _ _ Kd4). assert (Dho : (kh < op)%nat) by exact (cellb_lt _ _ _ _ Kh4). assert (Dio : (ip < op)%nat) by exact (cellb_lt _ _ _ _ Ip4).
    set (o5c := repeat 92 (N.to_nat (block_size a))). set (t6 := set_obj op (OBytes o5c) t5).
    assert (I6 : inv None t6 [op; ip; kd; kh]) by (apply inv_set; [exact I5|now apply repeat_bytes|now left|exact Gop]).
    assert (Op6 : cellb t6 op Heap o5c) by exact (cellb_set_same _ _ _ _ _ Op5).
    assert (Ip6 : cellb t6 ip Heap i36) by (apply cellb_set_other; [unfold cellb; rewrite Sm5 by lia; exact Ip4|lia]).
    assert (Kd6 : cellb t6 kd Heap K0) by (apply cellb_set_other; [unfold cellb; rewrite Sm5 by lia; exact Kd4|lia]).
    assert (Kh6 : cellb t6 kh Stack khl2) by (apply cellb_set_other; [unfold cellb; rewrite Sm5 by lia; exact Kh4|lia]).
    assert (E6 : reliable P a -> errs t6 = errs s) by (intros Rel; unfold t6; rewrite set_obj_errs, E5; now apply E4).
    (* xor *)
    assert (Lo : length o5c = bs) by (unfold o5c, bs; now rewrite repeat_length, block_eq).
    assert (Bb : N.to_nat (block_size a) = bs) by (unfold bs; now rewrite block_eq).
    erewrite bind_done.
    2:{ eapply xor_steps; [lia|lia|lia|exact (cellb_get _ _ _ _ Ip6)|exact (cellb_get _ _ _ _ Op6)|exact (cellb_get _ _ _ _ Kd6)|lia|lia|lia]. }
    rewrite Bb in *. unfold i36, o5c. rewrite !xorn_repeat by exact LK0.
    set (ik := map (N.lxor 54) K0). set (ok := map (N.lxor 92) K0). fold i36 in Ip6. fold o5c in Op6.
    set (t7 := set_obj op (OBytes ok) (set_obj ip (OBytes ik) t6)).
    assert (I7 : inv None t7 [op; ip; kd; kh]).
    { apply inv_set; [|apply lxor_bytes; [reflexivity|exact BK0]|now left|exact Gop]. apply inv_set; [exact I6|apply lxor_bytes; [reflexivity|exact BK0]|cbn; auto|exact Gip]. }
    assert (Ip7 : cellb t7 ip Heap ik) by (apply cellb_set_other; [exact (cellb_set_same _ _ _ _ _ Ip6)|lia]).
    assert (Op7 : cellb t7 op Heap ok) by (apply (cellb_set_same _ op Heap o5c); apply cellb_set_other; [exact Op6|lia]).
    assert (Kd7 : cellb t7 kd Heap K0) by (apply cellb_set_other; [apply cellb_set_other; [exact Kd6|lia]|lia]).
    assert (Kh7 : cellb t7 kh Stack khl2) by (apply cellb_set_other; [apply cellb_set_other; [exact Kh6|lia]|lia]).
    assert (E7 : reliable P a -> errs t7 = errs s) by (intros Rel; unfold t7; rewrite !set_obj_errs; now apply E6).
    assert (Lik : length ik = bs) by (unfold ik; now rewrite map_length). assert (Lok : length ok = bs) by (unfold ok; now rewrite map_length).
    (* how a pass that fails ends *)
    assert (Fail : forall t8 t9 context, inv hm t8 [op; ip; kd; kh] -> step e (outs hm) t8 t9 -> outrel hm t8 t9 -> held t8 t9 context -> errors_added e t8 t9 -> why (evp_hmac_args E v a (Some kp) key_size buffer size hm n) t9 ->
      cellb t8 ip Heap ik -> cellb t8 op Heap ok -> cellb t8 kd Heap K0 -> cellb t8 kh Stack khl2 ->
      exists r t', hmac_on_error_with F a context (Some op) (Some ip) (Some kd) t9 = Done r t' /\ ((r = 1%Z /\ good_end (evp_hmac_args E v a (Some kp) key_size buffer size hm n) (Some kp) key_size buffer size hm kh t') \/ (r = (-1)%Z /\ bad_end (evp_hmac_args E v a (Some kp) key_size buffer size hm n) hm kh t'))).
    { intros t8 t9 context J St R Hc Ea W Ci Co Ck Ch.
      assert (Out : forall q, (length (mem s) <= q)%nat -> ~ In q (outs hm)) by (intros q Q X; pose proof (inv_out_lt hm q AH X); lia).
      assert (Fp : exists fp, ctxcell t9 context fp /\ newlive t8 t9 fp /\ forall q, In q fp -> (length (mem t8) <= q)%nat).
      { pose proof (inv_len _ _ _ J) as Lj. destruct context as [p|].
        - destruct Hc as (fp & c & O & N1 & L1). exists fp. split; [split; [exists c; exact O|intros q Q; specialize (L1 _ Q); lia]|]. now split.
        - exists []. split; [split; [reflexivity|intros q []]|]. split; [exact Hc|intros q []]. }
      destruct Fp as (fp & Cx & N9 & L9). pose proof (cellb_lt _ _ _ _ Ci). pose proof (cellb_lt _ _ _ _ Co). pose proof (cellb_lt _ _ _ _ Ck).
      assert (J9 : inv hm t9 (op :: ip :: kd :: kh :: fp)).
      { apply (inv_out hm t8); [|exact St|exact R|intros q y X Y Z; do 4 right; now apply (N9 q y)].
        destruct J as [Ja Js Jo Jl]. constructor; try assumption. intros q y X Y Z. destruct (Jl q y X Y Z) as [<-|[<-|[<-|[<-|[]]]]]; cbn; auto. }
      destruct (on_error_ok hm t9 _ kh khl2 context fp (Some op) (Some ip) (Some kd) J9) as (t10 & U & J10 & E10 & T10 & Kh10).
      - apply (added_r e (outs hm) s t8); [exact (i_step _ _ _ J)|exact Ea].
      - apply (cellb_step _ _ _ _ _ _ St Ch). now apply Out.
      - exact Cx.
      - split; [exact Gop|]. exists ok. split; [|exact Lok]. apply (cellb_step _ _ _ _ _ _ St Co). now apply Out.
      - split; [exact Gip|]. exists ik. split; [|exact Lik]. apply (cellb_step _ _ _ _ _ _ St Ci). now apply Out.
      - split; [exact Gkd|]. exists K0. split; [|exact LK0]. apply (cellb_step _ _ _ _ _ _ St Ck). now apply Out.
      - intros q Q. specialize (L9 _ Q). split; [|split]; intros Y; injection Y as Y; lia.
      - intros q Q. injection Q as <-. split; intros Y; injection Y as Y; lia.
      - intros q Q. injection Q as <-. intros Y; injection Y as Y; lia.
      - intros q [<-|[<-|[<-|[<-|Q]]]]; auto 6.
      - eexists _, _. split; [exact U|]. right. split; [reflexivity|]. split; [exact J10|]. split; [now exists khl2|]. split; [exact E10|].
        destruct W as [W|W]; [left; apply (allocd_mono t9 _ W); lia|now right]. }
    (* first pass *)
    assert (J7 : inv hm t7 [op; ip; kd; kh]) by (apply inv_hm; [exact AH|exact I7]).
    assert (Aip : accessible t7 (ip, 0) (hmac_block_size a)) by (exists ik; split; [exact (cellb_get _ _ _ _ Ip7)|cbn [snd]; unfold bs in *; lia]).
    destruct (session_ok e [(Some (ip, 0), hmac_block_size a); (buffer, size)] t7 hm n (inv_good _ _ _ I7)) as (r & t8 & U & S8 & R8 & X).
    { intros up [<-|[<-|[]]]; cbn [fst snd]; [exact Aip|exact (inv_arg _ _ _ _ _ I7 AB)]. }
    { exact (inv_arg _ _ _ _ _ I7 AH). }
    assert (Out : forall q, (length (mem s) <= q)%nat -> ~ In q (outs hm)) by (intros q Q Y; pose proof (inv_out_lt hm q AH Y); lia).
    erewrite bind_done by (rewrite pass_session; exact U). cbv iota beta. clear U. unfold up_bad in X.
    destruct X as [(-> & N8 & E8 & Hh & Hn & Z8 & Hg)|(context & -> & Hc & E8 & X)].
    2:{ apply (Fail t7 t8); try assumption. pose proof max_ge as Mg. rewrite <- block_eq in Mg. destruct X as [(up & [<-|[<-|[]]] & [X|X])|[X|[X|X]]]; cbn [fst snd] in X; try discriminate X; try lia.
        - right. right. intros (_ & _ & _ & Y & _). contradiction.
        - right. right. intros (_ & _ & _ & _ & _ & Y & _). rewrite <- max_eq in Y. lia.
        - right. right. intros (_ & _ & _ & _ & Y & _). contradiction.
        - right. right. intros (_ & _ & _ & _ & _ & _ & Y). contradiction.
        - apply (failed_why _ t8); [|lia]. apply (failed_mono t7 t8); [exact (inv_tries _ _ _ I7)|lia|exact X]. }
    assert (J8 : inv hm t8 [op; ip; kd; kh]) by (apply (inv_out hm t7); [exact J7|exact S8|exact R8|intros q y W Y Z; destruct (N8 q y W Y Z)]).
    destruct hm as [h|]; [|contradiction]. destruct buffer as [b|]; [|exfalso; apply (Z8 (None, size)); [right; now left|now left]].
    assert (Ip8 : cellb t8 ip Heap ik) by (apply (cellb_step _ _ _ _ _ _ S8 Ip7); now apply Out).
    assert (Op8 : cellb t8 op Heap ok) by (apply (cellb_step _ _ _ _ _ _ S8 Op7); now apply Out).
    assert (Kd8 : cellb t8 kd Heap K0) by (apply (cellb_step _ _ _ _ _ _ S8 Kd7); now apply Out).
    assert (Kh8 : cellb t8 kh Stack khl2) by (apply (cellb_step _ _ _ _ _ _ S8 Kh7); now apply Out).
    assert (Bb7 : bytes_at t7 b size = bytes_at s b size) by (apply bytes_same; apply (inv_none_same t7 _ _ I7); exact (accessible_lt _ _ _ AB)).
    assert (Bi7 : bytes_at t7 (ip, 0) (hmac_block_size a) = ik).
    { unfold bytes_at. cbn [fst snd]. rewrite (cellb_get _ _ _ _ Ip7). change (N.to_nat 0) with 0%nat. cbn [skipn]. apply firstn_all2. unfold bs in *. lia. }
    cbn in Hg. rewrite app_nil_r, Bb7, Bi7 in Hg.
    (* second pass *)
    assert (Ah8 : accessible t8 h n) by exact (inv_arg _ _ _ _ _ J8 AH).
    assert (Ahs : accessible t8 h (digest_size a)) by (destruct Ah8 as (l & Y & Z); exists l; split; [exact Y|lia]).
    assert (Aop : accessible t8 (op, 0) (hmac_block_size a)) by (exists ok; split; [exact (cellb_get _ _ _ _ Op8)|cbn [snd]; unfold bs in *; lia]).
    destruct (session_ok e [(Some (op, 0), hmac_block_size a); (Some h, digest_size a)] t8 (Some h) n (inv_good _ _ _ J8)) as (r & t9 & U & S9 & R9 & X).
    { intros up [<-|[<-|[]]]; cbn [fst snd]; assumption. }
    { exact Ah8. }
    erewrite bind_done by (rewrite pass_session; exact U). cbv iota beta. clear U. unfold up_bad in X.
    assert (Args : evp_hmac_args E v a (Some kp) key_size (Some b) size (Some h) n).
    { split; [discriminate|]. split; [exact Kx|]. split.
      - intros Y. rewrite <- max_eq. destruct (N.le_gt_cases key_size (evp_size_max E v)) as [Z|Z]; [exact Z|]. exfalso. apply NB. now split.
      - split; [discriminate|]. split; [discriminate|]. split; [|exact Hn]. rewrite <- max_eq. destruct (N.le_gt_cases size (evp_size_max E v)) as [Z|Z]; [exact Z|].
        exfalso. apply (Z8 (Some b, size)); [right; now left|now right]. }
    destruct X as [(-> & N9 & E9 & _ & _ & Z9 & Hg9)|(context & -> & Hc & E9 & X)].
    2:{ apply (Fail t8 t9); try assumption. pose proof max_ge as Mg. pose proof (hs_lt_block a) as Hs. rewrite digest_eq in Hs. rewrite <- block_eq in Mg.
        destruct X as [(up & [<-|[<-|[]]] & [X|X])|[X|[X|X]]]; cbn [fst snd] in X; try discriminate X; try lia; [contradiction|].
        apply (failed_why _ t9); [|lia]. apply (failed_mono t8 t9); [exact (inv_tries _ _ _ J8)|lia|exact X]. }
    assert (J9 : inv (Some h) t9 [op; ip; kd; kh]) by (apply (inv_out (Some h) t8); [exact J8|exact S9|exact R9|intros q y W Y Z; destruct (N9 q y W Y Z)]).
    assert (Ip9 : cellb t9 ip Heap ik) by (apply (cellb_step _ _ _ _ _ _ S9 Ip8); now apply Out).
    assert (Op9 : cellb t9 op Heap ok) by (apply (cellb_step _ _ _ _ _ _ S9 Op8); now apply Out).
    assert (Kd9 : cellb t9 kd Heap K0) by (apply (cellb_step _ _ _ _ _ _ S9 Kd8); now apply Out).
    assert (Kh9 : cellb t9 kh Stack khl2) by (apply (cellb_step _ _ _ _ _ _ S9 Kh8); now apply Out).
    assert (Bo8 : bytes_at t8 (op, 0) (hmac_block_size a) = ok).
    { unfold bytes_at. cbn [fst snd]. rewrite (cellb_get _ _ _ _ Op8). change (N.to_nat 0) with 0%nat. cbn [skipn]. apply firstn_all2. unfold bs in *. lia. }
    cbn in Hg9. rewrite app_nil_r, Bo8, Hg in Hg9.
    (* clearing *)
    assert (Clear : forall u L L' q l, inv (Some h) u L -> (length (mem s) <= q)%nat -> cellb u q Heap l -> length l = bs -> (forall x, In x L -> x <> q -> In x L') ->
      exists u', (mset (q, 0) 0 (block_size a) ;;; mfree q) u = Done tt u' /\ inv (Some h) u' L' /\ tries u' = tries u /\ errs u' = errs u /\ forall x, x <> q -> nth_error (mem u') x = nth_error (mem u) x).
    { intros u L L' q l J Gq C Ll HL. destruct (clear_ok (Some h) u L L' (Some q) J) as (u' & V1 & V2 & V3 & V4 & V5).
      - split; [exact Gq|]. exists l. now split.
      - intros x Y Z. apply HL; [exact Y|congruence].
      - exists u'. unfold clear_and_free in V1. rewrite block_eq in V1. split; [exact V1|]. split; [exact V2|]. split; [exact V3|]. split; [exact V4|]. intros x Y. apply V5. congruence. }
    destruct (Clear t9 _ [ip; kd; kh] op ok J9 Gop Op9 Lok) as (t10 & U10 & J10 & T10 & E10 & Sm10); [intros x [<-|Q] Y; [congruence|exact Q]|].
    destruct (Clear t10 _ [kd; kh] ip ik J10 Gip) as (t11 & U11 & J11 & T11 & E11 & Sm11); [unfold cellb; rewrite Sm10 by lia; exact Ip9|exact Lik|intros x [<-|Q] Y; [congruence|exact Q]|].
    destruct (Clear t11 _ [kh] kd K0 J11 Gkd) as (t12 & U12 & J12 & T12 & E12 & Sm12); [unfold cellb; rewrite Sm11, Sm10 by lia; exact Kd9|exact LK0|intros x [<-|Q] Y; [congruence|exact Q]|].
    assert (Two : forall (A : Type) (m1 m2 : M unit) (k : M A) u u', (m1 ;;; m2) u = Done tt u' -> (m1 ;;; m2 ;;; k) u = k u').
    { intros A m1 m2 k u u' Y. rewrite <- bind_assoc. now rewrite (bind_done _ _ _ _ _ _ _ Y). }
    rewrite (Two _ _ _ _ _ _ U10), (Two _ _ _ _ _ _ U11), (Two _ _ _ _ _ _ U12).
    eexists _, _. split; [reflexivity|]. left. split; [reflexivity|]. split; [exact J12|].
    split; [exists khl2; unfold cellb; rewrite Sm12, Sm11, Sm10 by lia; exact Kh9|]. split; [|split; [exact Args|]].
    - intros Rel. rewrite E12, E11, E10, (E9 Rel), (E8 Rel). now apply E7.
    - exists kp, b, h. split; [reflexivity|]. split; [reflexivity|]. split; [reflexivity|].
      assert (Lh : (fst h < length (mem s))%nat) by exact (accessible_lt _ _ _ AH).
      rewrite (bytes_same t9) by (rewrite Sm12, Sm11, Sm10 by lia; reflexivity). rewrite Hg9. unfold spec_hmac, hmac. unfold ok, ik, K0, bs. rewrite block_eq. reflexivity.
  Qed.
  End Hmac.

  Lemma pop_ok : forall t p o, nth_error (mem t) p = Some (mk_cell true Stack o) -> pop_local p t = Done tt (kill p t).
  Proof. intros t p o C. unfold pop_local, kill. now rewrite C. Qed.

  Lemma evp_hmac : forall e key key_size buffer size hm n s, good_state s -> arg s key key_size -> arg s buffer size -> arg s hm n ->
    exists r s', calculate_hmac_with E F a key key_size buffer size hm n e s = Done r s' /\ good_state s' /\ no_leak s s' /\ only_output a s s' hm /\
    ((r = 1%Z /\ evp_hmac_args E v a key key_size buffer size hm n /\ (reliable P a -> errs s' = errs s) /\
      exists kp bp hp, key = Some kp /\ buffer = Some bp /\ hm = Some hp /\
      bytes_at s' hp (digest_size a) = spec_hmac a (bytes_at s kp key_size) (bytes_at s bp size)) \/
     (r = (-1)%Z /\ errors_added e s s' /\ (some_alloc_failed E s s' \/ ~ reliable P a \/ ~ evp_hmac_args E v a key key_size buffer size hm n))).
  Proof.
    intros e key key_size buffer size hm n s G AK AB AH. unfold calculate_hmac_with.
    set (khl := junk_bytes E (length (mem s)) (a_hs (alg_of a))). set (kh := length (mem s)). set (s0 := new_cell Stack (OBytes khl) s).
    rewrite (bind_done _ _ _ _ s kh s0) by reflexivity.
    assert (I0 : inv e s n None s0 [kh]) by (apply inv_new; [now apply inv_start|apply junk_byte]).
    assert (C0 : cellb s0 kh Stack khl) by exact (nth_new Stack (OBytes khl) s).
    destruct (body_ok e s n G key key_size buffer size hm s0 kh khl AK AB AH I0) as (r & t & U & X); [reflexivity|exact C0|unfold khl; rewrite junk_length, digest_eq; reflexivity|lia|].
    erewrite bind_done by exact U.
    assert (Y : inv e s n hm t [kh] /\ exists khl', cellb t kh Stack khl') by (destruct X as [(_ & Y & Z & _)|(_ & Y & Z & _)]; now split).
    destruct Y as (I1 & khl' & C1). erewrite bind_done by (eapply pop_ok; exact C1).
    assert (I2 : inv e s n hm (kill kh t) []) by (apply (inv_kill e s n hm t [kh]); [exact I1|lia|intros x [<-|[]] Z; congruence]).
    eexists _, _. split; [reflexivity|]. split; [exact (inv_good _ _ _ _ _ _ I2)|]. split; [apply newlive_leak; exact (i_live _ _ _ _ _ _ I2)|].
    split; [apply (output_step e s _ hm n G AH); [exact (i_step _ _ _ _ _ _ I2)|exact (i_out _ _ _ _ _ _ I2)]|].
    destruct X as [(-> & _ & _ & Er & Ar & kp & bp & hp & -> & -> & -> & Q)|(-> & _ & _ & Er & W)].
    - left. split; [reflexivity|]. split; [exact Ar|]. split; [intros Rel; rewrite kill_errs; now apply Er|]. exists kp, bp, hp. do 3 (split; [reflexivity|]). rewrite <- Q. apply bytes_same.
      apply kill_nth_other. pose proof (accessible_lt _ _ _ AH). unfold kh. lia.
    - right. split; [reflexivity|]. split; [unfold errors_added in *; rewrite kill_errs; exact Er|]. destruct W as [W|W]; [left|right; exact W].
      destruct W as (i & Wi & Wa). exists i. split; [rewrite kill_tries; exact Wi|exact Wa].
  Qed.
End Provider.
