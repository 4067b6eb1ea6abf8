(* Proofs for C56: what the functions for texts report. *)
From Coq Require Import String Ascii Arith NArith ZArith List Lia Bool.
From Verif Require Import Words Spec Machine WordFacts MachineFacts ToolStrings ToolStringsFacts ToolConvertFacts ToolProofs Vocab ToolVocab
  ErrorVocab.
Import ListNotations.
Open Scope N_scope.

Lemma scaled_unique : forall units size f q f' q', 1000 <= units -> scaled units size f q -> scaled units size f' q' -> f = f'.
Proof.
  assert (G : forall units size f q f' q', 1000 <= units -> scaled units size f q -> scaled units size f' q' -> ~ f < f').
  { intros units size f q f' q' U (-> & A & _) (-> & _ & B) L. destruct B as [->|B]; [lia|].
    assert (P : units ^ f * units <= units ^ f').
    { replace (units ^ f * units) with (units ^ (N.succ f)) by (rewrite N.pow_succ_r'; lia). apply N.pow_le_mono_r; lia. }
    assert (units ^ f <> 0) by (apply N.pow_nonzero; lia). assert (units ^ f' <> 0) by (apply N.pow_nonzero; lia).
    assert (size < units ^ f * units).
    { pose proof (N.div_mod size (units ^ f)). pose proof (N.mod_lt size (units ^ f)). nia. }
    rewrite N.div_small in B by lia. lia. }
  intros units size f q f' q' U H H'. pose proof (G _ _ _ _ _ _ U H H'). pose proof (G _ _ _ _ _ _ U H' H). lia.
Qed.

Lemma one_reported : forall e s k, reported e (Some [k]) (-1)%Z s (add_err e k s).
Proof. intros e s k. split; [reflexivity|]. destruct e; cbn; rewrite ?app_nil_r; reflexivity. Qed.

Ltac later := apply later_reason; [solve [discriminate | apply N.le_ngt; assumption | lia | intuition discriminate | tauto]|].

(* reading and writing bytes leaves the error object alone *)
Definition quiet {A : Type} (m : M A) : Prop := forall s x s', m s = Done x s' -> errs s' = errs s.
Lemma quiet_bind : forall A B (m : M A) (f : A -> M B), quiet m -> (forall x, quiet (f x)) -> quiet (bind m f).
Proof.
  intros A B m f Hm Hf s x s' H. unfold bind in H. destruct (m s) as [y s1|] eqn:E1; [|discriminate].
  rewrite (Hf y s1 x s' H). now apply (Hm s y s1).
Qed.
Lemma quiet_ret : forall A (x : A), quiet (ret x).
Proof. intros A x s y s' H. now injection H as <- <-. Qed.
Lemma quiet_lift : forall A (x : option A), quiet (lift x).
Proof. intros A [x|] s y s' H; [now injection H as <- <-|discriminate]. Qed.
Lemma quiet_view : forall p, quiet (view p).
Proof.
  intros p s x s' H. unfold view in H. destruct (get_obj s (fst p)) as [[l|a c|q]|]; try discriminate.
  destruct (snd p <=? _); [now injection H as <- <-|discriminate].
Qed.
Lemma quiet_write : forall p d, quiet (write p d).
Proof.
  intros p d s x s' H. unfold write in H. destruct (get_obj s (fst p)) as [[l|a c|q]|]; try discriminate.
  destruct (splice l (snd p) d); [|discriminate]. unfold put_obj in H.
  destruct (nth_error (mem s) (fst p)); [|discriminate]. destruct (live c); [|discriminate]. now injection H as _ <-.
Qed.
Lemma quiet_fold : forall A B (f : A -> B -> M A) l a, (forall a b, quiet (f a b)) -> quiet (mfold f l a).
Proof.
  intros A B f l. induction l as [|b l IH]; intros a H; [apply quiet_ret|]. cbn [mfold]. apply quiet_bind; [apply H|]. intros x. now apply IH.
Qed.
Lemma quiet_step : forall d t i j, quiet (copy_digit_step d t i j).
Proof.
  intros. unfold copy_digit_step, read_byte, write_byte.
  repeat (apply quiet_bind; [first [apply quiet_write | apply quiet_bind; [apply quiet_view|intros; apply quiet_lift]]|intros]). apply quiet_ret.
Qed.

Lemma copy_reports : forall E d n t size e s r s', digest_hash_copy_to_string E d n t size e s = Done r s' ->
  exists o, first_reason (alone (copy_reasons E d n t size)) o /\ reported e o r s s'.
Proof.
  intros E d n t size e s r s' H. unfold digest_hash_copy_to_string in H.
  unfold copy_reasons, input_reasons, alone. cbn [app map fst snd].
  destruct d as [d|]. 2: { rewrite fail_eq in H. injection H as <- <-. eexists. split; [|apply one_reported]. now apply this_reason. }
  destruct (N.ltb_spec (ssize_max E) n) as [L|L].
  { rewrite fail_eq in H. injection H as <- <-. eexists. split; [|apply one_reported]. later. now apply this_reason. }
  destruct t as [t|]. 2: { rewrite fail_eq in H. injection H as <- <-. eexists. split; [|apply one_reported]. do 2 later. now apply this_reason. }
  destruct (N.ltb_spec (ssize_max E) size) as [L2|L2].
  { rewrite fail_eq in H. injection H as <- <-. eexists. split; [|apply one_reported]. do 3 later. now apply this_reason. }
  rewrite copy_size in H by assumption. destruct (N.ltb_spec size (2 * n + 1)) as [L3|L3].
  { rewrite fail_eq in H. injection H as <- <-. eexists. split; [|apply one_reported]. do 4 later. now apply this_reason. }
  exists None. split; [do 5 later; apply no_reason|].
  assert (Q : quiet (string_iterator <- mfold (copy_digit_step d t) (seq 0 (N.to_nat n)) 0 ;; write_byte (ptr_add t string_iterator) 0 ;;; ret 1%Z)).
  { apply quiet_bind; [apply quiet_fold, quiet_step|]. intros. apply quiet_bind; [apply quiet_write|]. intros. apply quiet_ret. }
  split; [|exact (Q _ _ _ H)].
  unfold bind in H. destruct (mfold _ _ _ s) as [x s1|]; [|discriminate]. destruct (write_byte _ _ s1) as [y s2|]; [|discriminate].
  now injection H as <- _.
Qed.

Lemma create_reports : forall d target len size units e s, units = 1000 \/ units = 1024 -> size < 2 ^ 64 ->
  (forall t, target = Some t -> len <= N.of_nat (length t)) ->
  exists r v s' o, byte_size_string_create d target len size units e s = Done (r, v) s' /\
  first_reason (alone [ (target = None, E_ARGUMENT_INVALID_VALUE); (len < 9, E_ARGUMENT_VALUE_TOO_SMALL);
                        (d = None /\ exists f q, scaled units size f q /\ f <> 0 /\ q < 10, E_RUNTIME_GET_FAILED) ]) o /\
  reported e o r s s'.
Proof.
  intros d target len size units e s U S T. cbn [alone map fst snd].
  destruct target as [t|].
  2: { do 4 eexists. split; [reflexivity|]. split; [now apply this_reason|]. apply one_reported. }
  specialize (T t eq_refl). destruct (N.ltb_spec len 9) as [L|L].
  { do 4 eexists. split; [unfold byte_size_string_create; destruct (N.ltb_spec len 9); [reflexivity|lia]|].
    split; [later; now apply this_reason|]. apply one_reported. }
  assert (P : forall d, exists v, byte_size_string_create (Some d) (Some t) len size units e s = Done (1%Z, v) s).
  { intros d0. destruct U as [-> | ->].
    - destruct (create_1000 d0 t len size e s) as (f & q & x & nu & _ & _ & _ & _ & _ & R); try lia. eexists. exact R.
    - destruct (create_1024 d0 t len size e s) as (f & q & x & nu & _ & _ & _ & _ & _ & R); try lia. eexists. exact R. }
  destruct d as [d|].
  { destruct (P d) as (v & R). do 4 eexists. split; [exact R|]. split; [later; later; later; apply no_reason|]. split; reflexivity. }
  destruct (create_no_point_code t len size units e s U S) as (f & q & SC & [(FQ & R)|(F & Q & R)]); [lia| |].
  - destruct (P 46) as (v & R'). rewrite (R 46), R'. do 3 eexists. exists None. split; [reflexivity|]. split; [|split; reflexivity].
    later. later. apply later_reason; [|apply no_reason]. intros (_ & f' & q' & SC' & F' & Q').
    assert (f = f') by (eapply scaled_unique; try eassumption; lia). subst f'.
    destruct SC as (-> & _). destruct SC' as (-> & _). destruct FQ; lia.
  - do 4 eexists. split; [exact R|]. clear R P. split; [|apply one_reported]. later. later. apply this_reason. split; [reflexivity|]. now exists f, q.
Qed.

Lemma convert_reports : forall verbose d str len size e s r v s', byte_size_string_convert verbose d str len size e s = Done (r, v) s' ->
  exists o, first_reason (alone [ (str = None, E_ARGUMENT_INVALID_VALUE); (size = false, E_ARGUMENT_INVALID_VALUE);
    (d = None, E_RUNTIME_GET_FAILED); (v = None, E_RUNTIME_VALUE_OUT_OF_BOUNDS) ]) o /\ reported e o r s s'.
Proof.
  intros verbose d str len size e s r v s' H. unfold byte_size_string_convert in H. cbn [alone map fst snd].
  destruct str as [str|].
  2: { erewrite bind_done in H by (rewrite fail_eq; reflexivity). injection H as <- <- <-. eexists. split; [now apply this_reason|apply one_reported]. }
  destruct size; cbn [negb] in H.
  2: { erewrite bind_done in H by (rewrite fail_eq; reflexivity). injection H as <- <- <-. eexists. split; [later; now apply this_reason|apply one_reported]. }
  destruct d as [d|].
  2: { erewrite bind_done in H by (rewrite fail_eq; reflexivity). injection H as <- <- <-. eexists. split; [do 2 later; now apply this_reason|apply one_reported]. }
  destruct (scan_number _ _ _ _ _) as [[i bs]|]; [|discriminate]. rewrite (bind_done _ _ _ _ _ _ _ (lift_some _ _ _)) in H. cbv beta iota in H.
  destruct (scan_fraction _ _ _ _) as [[i' rem]|]; [|discriminate]. rewrite (bind_done _ _ _ _ _ _ _ (lift_some _ _ _)) in H. cbv beta iota in H.
  destruct (aget str i') as [c|]; [|discriminate]. rewrite (bind_done _ _ _ _ _ _ _ (lift_some _ _ _)) in H. cbv beta iota zeta in H.
  destruct (aget str (if c =? 32 then Datatypes.S i' else i')) as [c'|]; [|discriminate]. rewrite (bind_done _ _ _ _ _ _ _ (lift_some _ _ _)) in H. cbv beta iota zeta in H.
  destruct (scan_units _ _ _) as [[[u i2]|]|]; [| |discriminate]; rewrite (bind_done _ _ _ _ _ _ _ (lift_some _ _ _)) in H; cbv beta iota in H.
  - exists None.
    assert (Q : r = 1%Z /\ v <> None /\ s' = s).
    { destruct verbose.
      - destruct (aget str i2) as [c2|]; [|discriminate]. unfold bind, lift, ret in H. injection H as <- <- <-. repeat split; discriminate.
      - unfold bind, ret in H. injection H as <- <- <-. repeat split; discriminate. }
    destruct Q as (-> & Q & ->). split; [do 4 later; apply no_reason|]. split; reflexivity.
  - erewrite bind_done in H by (rewrite fail_eq; reflexivity). injection H as <- <- <-. eexists. split; [do 3 later; now apply this_reason|apply one_reported].
Qed.
