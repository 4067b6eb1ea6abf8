(* Lemmas about signals in hmacsum *)
From Coq Require Import Arith NArith ZArith List Bool Lia.
From Verif Require Import Signal SignalVocab.
Import ListNotations.

Definition before_attach (p : place) : bool :=
  match p with P_locale | P_output | P_initialize | P_size | P_digests | P_attach => true | _ => false end.
Definition after_detach (p : place) : bool :=
  match p with P_parts | P_free | P_clear | P_test_end => true | _ => false end.
Definition handle_at (p : place) (h : handle_var) : Prop :=
  match p with
  | P_locale | P_output | P_initialize | P_test_end => h = H_null
  | P_clear | E_clear => h = H_freed
  | E_test => h = H_null \/ h = H_live
  | _ => h = H_live
  end.
Definition error_place (p : place) : bool :=
  match p with E_test | E_parts | E_free | E_clear => true | _ => false end.
(* the calls that were passed *)
Definition passed_calls (R : results) (p : place) (aborted : bool) : Prop :=
  match p with
  | P_locale | E_test | E_parts | E_free | E_clear => True
  | P_output => r_locale R = true
  | P_initialize => r_locale R = true /\ r_output R = true
  | P_size => r_locale R = true /\ r_output R = true /\ r_initialize R = true
  | P_digests => r_locale R = true /\ r_output R = true /\ r_initialize R = true /\ r_size R = true
  | P_attach | P_open | P_test_open => r_locale R = true /\ r_output R = true /\ r_initialize R = true /\ r_size R = true /\ r_digests R = true
  | P_process | P_test_process => r_locale R = true /\ r_output R = true /\ r_initialize R = true /\ r_size R = true /\ r_digests R = true /\ (aborted = false -> r_open R = true)
  | P_print => r_locale R = true /\ r_output R = true /\ r_initialize R = true /\ r_size R = true /\ r_digests R = true /\ (aborted = false -> r_open R = true /\ r_process R = true)
  | P_close => r_locale R = true /\ r_output R = true /\ r_initialize R = true /\ r_size R = true /\ r_digests R = true /\ (aborted = false -> r_open R = true /\ r_process R = true /\ r_print R = true)
  | P_detach | P_parts | P_free | P_clear => r_locale R = true /\ r_output R = true /\ r_initialize R = true /\ r_size R = true /\ r_digests R = true /\
      (aborted = false -> r_open R = true /\ r_process R = true /\ r_print R = true) /\ r_close R = true
  | P_test_end => r_locale R = true /\ r_output R = true /\ r_initialize R = true /\ r_size R = true /\ r_digests R = true /\
      (aborted = false -> r_open R = true /\ r_process R = true /\ r_print R = true) /\ r_close R = true /\ r_parts R = true
  end.

Record inv (R : results) (s : sigstate) : Prop := mk_inv {
  inv_handle : handle_at (at_place s) (the_handle s);
  inv_before : before_attach (at_place s) = true -> attached s = false /\ abort_flag s = false;
  inv_after : after_detach (at_place s) = true -> r_detach R = true -> attached s = false;
  inv_attach : attached s = true \/ abort_flag s = true -> r_attach R = true;
  inv_abort : abort_flag s = true -> the_handle s = H_live -> handle_abort s = true;
  inv_calls : passed_calls R (at_place s) (abort_flag s);
  inv_error : error_place (at_place s) = true -> the_handle s <> H_null -> attached s = true ->
     r_open R = false \/ r_process R = false \/ r_print R = false \/ r_close R = false;
  inv_failed : error_place (at_place s) = true -> ~ all_calls_work R;
}.

Lemma inv_step : forall R s s', inv R s -> step R s = Running s' -> inv R s'.
Proof.
  intros R [p at_ ab h ha sd] s' [I1 I2 I3 I4 I5 I6 I7 I8] H.
  cbn [at_place attached abort_flag the_handle handle_abort] in *.
  unfold step in H. cbn [at_place the_handle abort_flag] in H.
  destruct p; cbn [handle_at before_attach after_detach error_place passed_calls] in *;
    repeat match type of H with
           | context [if ?b then _ else _] => destruct b eqn:?
           | context [match h with _ => _ end] => destruct h
           end;
    try discriminate; injection H as <-; cbn [goto set_attached set_handle];
    (constructor; cbn [at_place attached abort_flag the_handle handle_abort handle_at before_attach after_detach error_place passed_calls goto set_attached set_handle];
     unfold all_calls_work in *; try (intuition congruence)).
Qed.

Lemma inv_signal : forall R s s', inv R s -> deliver s = Running s' -> inv R s'.
Proof.
  intros R [p at_ ab h ha sd] s' [I1 I2 I3 I4 I5 I6 I7 I8] H.
  cbn [at_place attached abort_flag the_handle handle_abort] in *.
  unfold deliver in H. cbn [attached the_handle at_place handle_abort] in H.
  destruct at_; [|discriminate]. destruct h; try discriminate; injection H as <-;
    (constructor; cbn [at_place attached abort_flag the_handle handle_abort] in *; try (destruct p; cbn in *; intuition congruence)).
Qed.

Lemma inv_start : forall R, inv R (mk_sig P_locale false false H_null false true).
Proof. intros R. constructor; cbn; intuition congruence. Qed.

Lemma reached_inv : forall R c, reached R c -> forall s, c = Running s -> inv R s.
Proof.
  intros R c H. induction H as [|c d H IH X]; intros s E.
  - injection E as <-. apply inv_start.
  - destruct X as [s0|s0]; [apply (inv_step R s0)|apply (inv_signal R s0)]; auto.
Qed.

Lemma step_defined : forall R s, inv R s -> step R s <> Undefined.
Proof.
  intros R [p at_ ab h ha sd] [I1 _ _ _ _ _ _ _]. cbn [at_place the_handle] in I1. unfold step. cbn [at_place the_handle abort_flag].
  destruct p; cbn [handle_at] in I1;
    repeat match goal with |- context [if ?b then _ else _] => destruct b end; try discriminate;
    try (rewrite I1; discriminate); destruct I1 as [-> | ->]; discriminate.
Qed.

Lemma reached_last : forall R d, reached R d ->
  d = Running (mk_sig P_locale false false H_null false true) \/ exists s, reached R (Running s) /\ (step R s = d \/ deliver s = d).
Proof.
  intros R d H. destruct H as [|c d Hc X]; [now left|]. right. destruct X as [s|s]; exists s; auto.
Qed.

Lemma undefined_window : forall R, reached R Undefined ->
  exists s, reached R (Running s) /\ attached s = true /\ the_handle s = H_freed /\
  ((at_place s = P_clear /\ r_detach R = false) \/
   (at_place s = E_clear /\ (r_open R = false \/ r_process R = false \/ r_print R = false \/ r_close R = false))).
Proof.
  intros R H. destruct (reached_last R _ H) as [E|(s & Hc & [Q|Q])]; [discriminate| |].
  - exfalso. apply (step_defined R s); [|exact Q]. now apply (reached_inv R _ Hc).
  - exists s. split; [exact Hc|]. pose proof (reached_inv R _ Hc s eq_refl) as [I1 I2 I3 I4 I5 I6 I7 I8].
    unfold deliver in Q. destruct (attached s) eqn:A; [|discriminate]. destruct (the_handle s) eqn:Hh; try discriminate.
    split; [reflexivity|]. split; [reflexivity|].
    destruct (at_place s) eqn:P; cbn [handle_at] in I1; try discriminate; try (destruct I1; discriminate).
    + left. split; [reflexivity|]. destruct (r_detach R); [|reflexivity]. specialize (I3 eq_refl eq_refl). discriminate.
    + right. split; [reflexivity|]. apply I7; [reflexivity|discriminate|reflexivity].
Qed.

Lemma signals_safe : forall R c, r_attach R = false \/
  (r_open R = true /\ r_process R = true /\ r_print R = true /\ r_close R = true /\ r_detach R = true) ->
  reached R c -> c <> Undefined.
Proof.
  intros R c H C ->. destruct (undefined_window R C) as (s & Hs & A & _ & W).
  pose proof (reached_inv R _ Hs s eq_refl) as [_ _ _ I4 _ _ _ _].
  destruct H as [H|H]; [rewrite I4 in H by (now left); discriminate|]. intuition congruence.
Qed.

Lemma signals_exit : forall R code s, reached R (Exited code s) ->
  the_handle s = H_null /\ (code = 0%Z \/ code = 1%Z) /\
  (code = 0%Z <-> all_calls_work R /\ abort_flag s = false).
Proof.
  intros R code s H. destruct (reached_last R _ H) as [E|(s0 & Hc & [Q|Q])]; [discriminate| |].
  2: { unfold deliver in Q. destruct (attached s0); [destruct (the_handle s0)|]; discriminate. }
  pose proof (reached_inv R _ Hc s0 eq_refl) as [I1 I2 I3 I4 I5 I6 I7 I8]. clear - Q I1 I6 I8.
  destruct s0 as [p at_ ab h ha sd]. cbn [at_place the_handle abort_flag] in *. unfold step in Q. cbn [at_place the_handle abort_flag] in Q.
  destruct p; cbn [handle_at error_place passed_calls] in *;
    repeat match type of Q with
           | context [if ?b then _ else _] => destruct b eqn:?
           | context [match h with _ => _ end] => destruct h
           end; try discriminate; injection Q as <- <-; cbn [the_handle abort_flag set_handle];
    unfold all_calls_work in *; (split; [assumption || reflexivity|]); (split; [auto|]); split; intros; intuition congruence.
Qed.

Lemma abort_noticed : forall R s, reached R (Running s) -> abort_flag s = true -> the_handle s = H_live -> handle_abort s = true.
Proof. intros R s H. destruct (reached_inv R _ H s eq_refl). assumption. Qed.

(* runs *)
Fixpoint steps (R : results) (n : nat) (c : process) : process :=
  match n with
  | O => c
  | S n => match c with Running s => steps R n (step R s) | _ => c end
  end.
Lemma reached_steps : forall R n c, reached R c -> reached R (steps R n c).
Proof.
  intros R n. induction n as [|n IH]; intros c H; [exact H|]. cbn [steps]. destruct c as [s| |code s|]; try exact H.
  apply IH. eapply reached_next; [exact H|constructor].
Qed.

Lemma signalled : forall R s, reached R (Running s) -> deliver s = Undefined -> reached R Undefined.
Proof. intros R s H E. rewrite <- E. eapply reached_next; [exact H|constructor]. Qed.

Lemma signals_unsafe : (exists R, r_detach R = true /\ r_open R = false /\ reached R Undefined) /\
  (exists R, all_calls_work R /\ r_attach R = true /\ r_detach R = false /\ reached R Undefined).
Proof.
  split.
  - exists (mk_results true true true true true true false true true true true true). split; [reflexivity|]. split; [reflexivity|].
    apply (signalled _ (mk_sig E_clear true false H_freed false true)); [|reflexivity].
    match goal with |- reached ?R ?d => replace d with (steps R 11 (Running (mk_sig P_locale false false H_null false true))) by (vm_compute; reflexivity) end.
    apply reached_steps, reached_start.
  - exists (mk_results true true true true true true true true true true false true).
    split; [unfold all_calls_work; cbn; intuition|]. split; [reflexivity|]. split; [reflexivity|].
    apply (signalled _ (mk_sig P_clear true false H_freed false true)); [|reflexivity].
    match goal with |- reached ?R ?d => replace d with (steps R 15 (Running (mk_sig P_locale false false H_null false true))) by (vm_compute; reflexivity) end.
    apply reached_steps, reached_start.
Qed.

(* counting signals *)
Lemma by_reached : forall R n c, reached_by R n c -> reached R c.
Proof.
  intros R n c H. induction H as [|n s H IH|n s H IH]; [apply reached_start| |]; (eapply reached_next; [exact IH|constructor]).
Qed.
Lemma reached_counted : forall R c, reached R c -> exists n, reached_by R n c.
Proof.
  intros R c H. induction H as [|c d H (n & IH) X]; [exists 0%nat; apply by_start|].
  destruct X as [s|s]; [exists n; now apply by_step|exists (S n); now apply by_signal].
Qed.
Definition flag_of (c : process) : option bool :=
  match c with Running s => Some (abort_flag s) | Exited _ s => Some (abort_flag s) | _ => None end.
Lemma step_flag : forall R s b, flag_of (step R s) = Some b -> b = abort_flag s.
Proof.
  intros R [p at_ ab h ha sd] b H. unfold step in H. cbn [at_place the_handle abort_flag] in *.
  destruct p; repeat match type of H with
           | context [if ?b then _ else _] => destruct b eqn:?
           | context [match h with _ => _ end] => destruct h
           end; cbn in H; congruence.
Qed.
Lemma counted_flag : forall R n c, reached_by R n c -> forall b, flag_of c = Some b -> (b = false <-> n = 0%nat).
Proof.
  intros R n c H. induction H as [|n s H IH|n s H IH]; intros b F.
  - cbn in F. injection F as <-. intuition.
  - apply step_flag in F. subst b. now apply IH.
  - unfold deliver in F. destruct (attached s); [|discriminate]. destruct (the_handle s); cbn in F; try discriminate; injection F as <-; split; discriminate.
Qed.
Lemma counted_exit : forall R n code s, reached_by R n (Exited code s) ->
  the_handle s = H_null /\ (code = 0%Z \/ code = 1%Z) /\ (code = 0%Z <-> all_calls_work R /\ n = 0%nat).
Proof.
  intros R n code s H. destruct (signals_exit R code s (by_reached _ _ _ H)) as (A & B & C). split; [exact A|]. split; [exact B|].
  rewrite C. pose proof (counted_flag R n _ H (abort_flag s) eq_refl). tauto.
Qed.

(* what the handler did *)
Lemma stdin_closed : forall R n c, reached_by R n c -> forall s, c = Running s \/ (exists code, c = Exited code s) -> (stdin_open s = true <-> n = 0%nat).
Proof.
  intros R n c H. induction H as [|n s0 H IH|n s0 H IH]; intros s F.
  - destruct F as [F|(code & F)]; [|discriminate]. injection F as <-. cbn. intuition.
  - assert (Q : stdin_open s = stdin_open s0).
    { clear - F. destruct s0 as [p at_ ab h ha sd]. unfold step in F. cbn [at_place the_handle abort_flag] in F.
      destruct p; repeat match type of F with
           | context [if ?b then _ else _] => destruct b eqn:?
           | context [match h with _ => _ end] => destruct h
           end; destruct F as [F|(code & F)]; try discriminate; try (injection F as <-; reflexivity); injection F as _ <-; reflexivity. }
    rewrite Q. apply IH. now left.
  - destruct F as [F|(code & F)]; unfold deliver in F; destruct (attached s0); try discriminate; destruct (the_handle s0); try discriminate;
      injection F as <-; cbn [stdin_open]; split; discriminate.
Qed.
Lemma place_attached : forall R s, reached R (Running s) -> r_attach R = true ->
  before_attach (at_place s) = false -> error_place (at_place s) = false -> (after_detach (at_place s) = false \/ r_detach R = false) -> attached s = true.
Proof.
  intros R s H A. remember (Running s) as c eqn:E. revert s E. induction H as [|c d H IH X]; intros s E B P D.
  - injection E as <-. discriminate.
  - destruct X as [s0|s0].
    + specialize (IH s0 eq_refl). destruct s0 as [p at_ ab h ha sd]. unfold step in E. cbn [at_place the_handle abort_flag attached] in *.
      destruct p; repeat match type of E with
           | context [if ?b then _ else _] => destruct b eqn:?
           | context [match h with _ => _ end] => destruct h
           end; try discriminate; injection E as <-; cbn in B, P, D |- *; try discriminate; try reflexivity; try congruence;
        (destruct D; congruence) || (apply IH; cbn; auto; destruct D; auto; congruence).
    + unfold deliver in E. destruct (attached s0) eqn:Q; [|discriminate]. destruct (the_handle s0); try discriminate; injection E as <-; reflexivity.
Qed.
Lemma not_killed : forall R s, reached R (Running s) -> r_attach R = true ->
  ~ In (at_place s) [P_locale; P_output; P_initialize; P_size; P_digests; P_attach; E_test; E_parts; E_free; E_clear] ->
  (In (at_place s) [P_parts; P_free; P_clear; P_test_end] -> r_detach R = false) -> deliver s <> Killed.
Proof.
  intros R s H A B D. assert (Q : attached s = true).
  { apply (place_attached R s H A).
    - destruct (at_place s); try reflexivity; exfalso; apply B; cbn; tauto.
    - destruct (at_place s); try reflexivity; exfalso; apply B; cbn; tauto.
    - destruct (at_place s); try (left; reflexivity); right; apply D; cbn; tauto. }
  unfold deliver. rewrite Q. destruct (the_handle s); discriminate.
Qed.
