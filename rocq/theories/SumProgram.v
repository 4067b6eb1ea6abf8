(* hmacsum from the parsed options to the exit code. *)
From Coq Require Import String Ascii Arith NArith ZArith List Bool Lia.
From Verif Require Import Words Spec Machine MachineFacts Context ContextFacts ReprFacts DigestFacts Hash HashFacts HmacFacts
  Vocab HistoryFacts LibProofs LibTheorems ToolStrings ToolVocab ToolStringsFacts ToolConvertFacts ToolProofs SumHandle SumVocab SumFacts SumProcess SumMain
  SumSelect.
Import ListNotations.
Open Scope N_scope.

(* the handle and memory in the course of the program that started in s0 *)
(* nothing was taken away from the error object *)
Definition more (s s' : state) : Prop := exists ks, errs s' = errs s ++ ks.
Lemma more_same : forall s s', errs s' = errs s -> more s s'.
Proof. intros s s' H. exists []. now rewrite app_nil_r. Qed.
Lemma more_added : forall s s', errors_added true s s' -> more s s'.
Proof. intros s s' (k & ks & H). now exists (k :: ks). Qed.
Lemma more_trans : forall s s1 s2, more s s1 -> more s1 s2 -> more s s2.
Proof. intros s s1 s2 (a & A) (b & B). exists (a ++ b). now rewrite B, A, app_assoc. Qed.
Lemma added_after : forall s s1 s2, more s s1 -> errors_added true s1 s2 -> errors_added true s s2.
Proof. intros s s1 s2 (a & A) (k & ks & B). unfold errors_added. destruct a as [|x a]; [exists k, ks|exists x, (a ++ k :: ks)]; rewrite B, A, <- app_assoc; reflexivity. Qed.
Lemma added_before : forall s s1 s2, errors_added true s s1 -> more s1 s2 -> errors_added true s s2.
Proof. intros s s1 s2 (k & ks & A) (b & B). exists k, (ks ++ b). now rewrite B, A, <- app_assoc. Qed.

Record inv (s0 s : state) (h : handle) : Prop := {
  i_wf : wf_state s;
  i_ok : handle_ok s h;
  i_same : unchanged s0 s;
  i_new : forall q, owned h q -> (length (mem s0) <= q)%nat;
  i_len : (length (mem s0) <= length (mem s))%nat;
  i_tries : (tries s0 <= tries s)%nat;
}.

Lemma inv_mem : forall s0 s s' h, inv s0 s h -> mem s' = mem s -> tries s' = tries s -> inv s0 s' h.
Proof.
  intros s0 s s' h [A B C D F G] M T. split.
  - now apply (wf_same_mem s).
  - apply (handle_ok_cells s); [exact B|]. intros. now rewrite M.
  - intros p c Hp. rewrite M. now apply C.
  - exact D.
  - now rewrite M.
  - now rewrite T.
Qed.

Lemma inv_free : forall W s0 s h e, inv s0 s h ->
  exists s', sum_handle_free W (Some (Some h)) e s = Done ((if in_free W then 1 else -1)%Z, None) s' /\ wf_state s' /\ unchanged s0 s' /\
  (length (mem s0) <= length (mem s'))%nat /\ tries s' = tries s /\ (accounted s0 s h -> no_leak s0 s') /\ (if in_free W then errs s' = errs s else errors_added e s s').
Proof.
  intros W s0 s h e [A B C D F G]. destruct (free_ok W h e s A B) as (s' & H & W' & L & T & Er & S & K).
  exists s'. split; [exact H|]. split; [exact W'|]. split; [|split; [lia|split; [exact T|split; [|exact Er]]]].
  - intros p c Hp. rewrite S; [now apply C|]. intros O. apply D in O. apply cell_lt in Hp. lia.
  - intros Ac p c Hp Hc. destruct (live c) eqn:Lc; [|reflexivity]. exfalso.
    assert (Lv : live_at s' p) by (exists c; now split). assert (No : ~ owned h p) by (intros O; exact (K p O Lv)).
    apply No, Ac; [exact Hp|]. exact (live_at_same _ _ _ (S p No) Lv).
Qed.

Lemma main_error_ok : forall W s0 s h out, inv s0 s h ->
  exists s', main_error W (Some h) out s = Done (1%Z, out) s' /\ wf_state s' /\ unchanged s0 s' /\
  (length (mem s0) <= length (mem s'))%nat /\ tries s' = tries s /\ (accounted s0 s h -> no_leak s0 s') /\ errs s' = errs s.
Proof.
  intros W s0 s h out I. destruct (inv_free W s0 s h false I) as (s' & H & R1 & R2 & R3 & R4 & R5 & R6). exists s'.
  split; [cbn [main_error]; erewrite bind_done by exact H; reflexivity|]. do 5 (split; [assumption|]). now destruct (in_free W).
Qed.

Lemma main_end_ok : forall W signal t s0 s h out, inv s0 s h ->
  exists code out' s', main_end W signal t h out s = Done (code, out') s' /\ wf_state s' /\ unchanged s0 s' /\
  (length (mem s0) <= length (mem s'))%nat /\ tries s' = tries s /\ (accounted s0 s h -> no_leak s0 s') /\
  ((code = 0%Z /\ out' = out /\ in_close W = true /\ in_free W = true /\ arrived signal t = false) \/
   (code = 1%Z /\ out' = out /\ (in_close W = false \/ in_free W = false)) \/
   (code = 1%Z /\ out' = out ++ aborted_text /\ arrived signal t = true)) /\
  (code = 0%Z -> errs s' = errs s) /\ (code = 1%Z -> out' = out ++ aborted_text \/ errors_added true s s').
Proof.
  intros W signal t s0 s h out I. unfold main_end. cbn [sum_handle_close]. destruct (in_close W) eqn:CL.
  - rewrite bind_ret. change (0 =? 0)%Z with true. cbv iota.
    destruct (inv_free W s0 s h true I) as (s' & H & W' & U & L & T & K & Er). erewrite bind_done by exact H. cbn [fst snd].
    destruct (in_free W) eqn:FR.
    + change (1 =? 1)%Z with true. cbv iota. destruct (arrived signal t) eqn:A; unfold ret.
      * exists 1%Z, (out ++ aborted_text), s'. split; [reflexivity|]. do 5 (split; [assumption|]). split; [right; right; auto|]. split; [discriminate|now left].
      * exists 0%Z, out, s'. split; [reflexivity|]. do 5 (split; [assumption|]). split; [left; auto|]. split; [auto|discriminate].
    + change (-1 =? 1)%Z with false. cbv iota. exists 1%Z, out, s'. split; [reflexivity|]. do 5 (split; [assumption|]). split; [right; left; auto|]. split; [discriminate|now right].
  - erewrite bind_done by apply fail_eq. change (-1 =? 0)%Z with false. cbv iota.
    assert (I' : inv s0 (add_err true E_IO_CLOSE_FAILED s) h) by (apply (inv_mem s0 s); [exact I|reflexivity|reflexivity]).
    destruct (main_error_ok W s0 _ h out I') as (s' & H & W' & U & L & T & K & Er).
    exists 1%Z, out, s'. split; [exact H|]. split; [exact W'|]. split; [exact U|]. split; [exact L|]. split; [exact T|].
    split; [exact K|]. split; [right; left; auto|]. split; [discriminate|]. intros _. right. exists E_IO_CLOSE_FAILED, []. exact Er.
Qed.

Definition sum_result (E : env) (split : list N -> option (list (option (list N)))) (d : option N) (W : input) (signal : option nat)
  (size : option (list N * N)) (types : option (list N)) (s0 : state) (code : Z) (out : list N) (s' : state) : Prop :=
  wf_state s' /\ unchanged s0 s' /\
  (no_leak s0 s' \/ some_alloc_failed E s0 s' \/ exists str segs, types = Some str /\ split str = Some segs /\ In None segs) /\
  ((exists selected n k, (forall a, selected a = true <-> asked split types a) /\ in_open W = true /\ in_size W = Some n /\ n <= N.of_nat (length (in_data W)) /\
      (k <= N.to_nat n)%nat /\ arrived signal (1 + k) = false /\ (forall j, (j < k)%nat -> exists n, in_read W j = Some n /\ n <> 0) /\
      let text := digest_lines selected (firstn (N.to_nat n) (in_data W)) in
      (code = 0%Z /\ out = text /\ in_close W = true /\ in_free W = true /\ arrived signal (2 + k) = false) \/
      (code = 1%Z /\ out = text /\ (in_close W = false \/ in_free W = false)) \/
      (code = 1%Z /\ out = text ++ aborted_text /\ arrived signal (2 + k) = true)) \/
   (code = 1%Z /\ (out = [] \/ out = aborted_text /\ signal <> None) /\ refusal E split d W signal size types s0 s')) /\
  (code = 0%Z -> errs s' = errs s0) /\ (code = 1%Z -> (exists t, out = t ++ aborted_text) \/ errors_added true s0 s').

Lemma arrived_later : forall signal t u, (t <= u)%nat -> arrived signal t = true -> arrived signal u = true.
Proof. intros [v|] t u L A; [|discriminate]. cbn in *. apply Nat.leb_le in A. apply Nat.leb_le. lia. Qed.
Lemma arrived_some : forall signal t, arrived signal t = true -> signal <> None.
Proof. intros [v|] t A; [discriminate|exact (fun _ => match Bool.diff_false_true A with end)]. Qed.

Lemma inv_process : forall s0 s s' h h', inv s0 s h -> wf_state s' -> handle_ok s' h' -> same_selection h h' -> keeps h h' s s' ->
  (tries s <= tries s')%nat -> (length (mem s) <= length (mem s'))%nat -> 
  (forall q, (q < length (mem s))%nat -> ~ owned h q -> cell_at s' q = cell_at s q) ->
  (forall a p, context (slots h' a) = Some p -> context (slots h a) = Some p \/ (length (mem s) <= p)%nat) -> inv s0 s' h'.
Proof.
  intros s0 s s' h h' [A B C D F G] W' O' (Q1 & Q2 & Q3) K T L S J. split; try assumption; try lia.
  - intros p c Hp. rewrite S; [now apply C|exact (cell_lt _ _ _ (C p c Hp))|]. intros O. apply D in O. apply cell_lt in Hp. lia.
  - intros q [O|[O|(a & [O|O])]].
    + apply D. left. congruence.
    + apply D. right. left. congruence.
    + destruct (J a q O) as [X|X]; [apply D; right; right; exists a; now left|lia].
    + apply D. right. right. exists a. right. destruct (Q3 a) as (_ & <-). exact O.
Qed.

Lemma set_size_parsed : forall E verbose d h ds fr r sp l f ut u tail rest e s, point d -> text_ok d ds fr r sp ->
  In (l, f) letters -> In (ut, u) units_texts \/ (ut = EmptyString /\ tail = [] /\ u = 1024) -> Forall (fun c => c <> 0) tail ->
  let t := ds ++ fr ++ sp ++ chars l ++ chars ut ++ tail in let n := parsed_value (value_of ds) r f u in
  sum_handle_set_process_buffer_size E verbose (Some d) (Some h) (t ++ 0 :: rest) (N.of_nat (length t)) e s =
  if n <=? ssize_max E then Done (1%Z, Some (set_buffer_size n h)) s else Done (0%Z, Some h) s.
Proof.
  intros E verbose d h ds fr r sp l f ut u tail rest e s P F L U T t n. cbn [sum_handle_set_process_buffer_size].
  erewrite bind_done by (unfold t; now apply (convert_accepts verbose d ds fr r sp l f ut u tail rest e s)). cbn [fst snd].
  change (1 =? -1)%Z with false. change (1 =? 0)%Z with false. cbn [negb]. cbv iota zeta. fold n.
  destruct (N.ltb_spec (ssize_max E) n) as [B|B], (N.leb_spec n (ssize_max E)) as [C|C]; try lia; [reflexivity|].
  rewrite N.mod_small; [reflexivity|]. unfold ssize_max, size_mod in *. destruct (plat64 E); lia.
Qed.

Lemma hmacsum_ok : forall E split verbose d W signal size types s0, wf_state s0 -> input_ok W -> size_argument size -> point_or_none d ->
  exists code out s', hmacsum E split verbose d W signal size types s0 = Done (code, out) s' /\
  sum_result E split d W signal size types s0 code out s'.
Proof.
  intros E split verbose d W signal size types s0 Wf IO SA PN. unfold hmacsum.
  pose proof (initialize_ok E true s0 Wf) as IN. cbv zeta in IN.
  destruct (alloc_ok E (tries s0) && alloc_ok E (S (tries s0)) && alloc_ok E (S (S (tries s0)))) eqn:AL.
  2:{ destruct IN as (s1 & H1 & W1 & U1 & Er1 & F1 & _). erewrite bind_done by exact H1. cbn [fst snd]. cbn [main_error]. unfold ret.
      exists 1%Z, [], s1. split; [reflexivity|]. split; [exact W1|]. split; [exact U1|]. split; [right; now left|].
      split; [right; split; [reflexivity|]; split; [now left|]; right; now left|]. split; [discriminate|now right]. }
  destruct IN as (h1 & s1 & H1 & W1 & O1 & (Sel1 & NC1 & B1 & Ab1) & Ac1 & U1 & E1 & L1 & N1 & T1).
  erewrite bind_done by exact H1. cbn [fst snd]. change (1 =? 1)%Z with true. cbn [negb]. cbv iota. clear H1 AL.
  assert (I1 : inv s0 s1 h1) by (split; try assumption; lia).
  (* the buffer size *)
  set (m1 := match size with None => ret (0%Z, h1) | Some (str, len) => _ end).
  assert (X : exists r n s2, m1 s1 = Done (r, set_buffer_size n h1) s2 /\ (r = 0%Z /\ errs s2 = errs s1 \/ r = (-1)%Z /\ errors_added true s1 s2 /\ ~ usable_size d size) /\ (usable_size d size -> 0 < n <= ssize_max E) /\ mem s2 = mem s1 /\ tries s2 = tries s1).
  { unfold m1. destruct size as [(str, len)|].
    - destruct (SA str len eq_refl) as (t & rest & -> & -> & Ft).
      assert (PD : d = None \/ exists x, d = Some x /\ point x) by (destruct d as [x|]; [right; exists x; split; [reflexivity|]; now apply PN|now left]).
      destruct (set_size_ok E verbose d h1 t rest true s1 PD Ft) as (r & n & s2 & H2 & M2 & T2 & X2).
      assert (US : usable_size d (Some (t ++ 0 :: rest, N.of_nat (length t))) -> r = 0%Z \/ r = 1%Z /\ 0 < n <= ssize_max E).
      { intros [C|(x & ds & fr & r' & sp & l & f & ut & u & tail & rest' & A1 & A2 & A3 & A4 & A5 & A6 & Q)]; [discriminate|]. cbv zeta in Q.
        injection Q as Q1 Q2.
        pose proof (set_size_parsed E verbose x h1 ds fr r' sp l f ut u tail rest' true s1 (PN x A1) A2 A3 A4 A5) as Z. cbv zeta in Z.
        rewrite <- Q1, <- Q2, <- A1 in Z. rewrite H2 in Z. destruct (N.leb_spec (parsed_value (value_of ds) r' f u) (ssize_max E)) as [B|B].
        - injection Z as -> Qn _. right. split; [reflexivity|]. rewrite Qn. lia.
        - injection Z as -> _ _. now left. }
      erewrite bind_done by exact H2. cbn [fst snd]. erewrite bind_done by reflexivity.
      assert (SM : 0 < 32768 <= ssize_max E) by (unfold ssize_max; destruct (plat64 E); lia).
      destruct (r =? -1)%Z eqn:R.
      + apply Z.eqb_eq in R. subst r. exists (-1)%Z, n, s2. split; [reflexivity|].
        assert (NU : ~ usable_size d (Some (t ++ 0 :: rest, N.of_nat (length t)))) by (intros U; destruct (US U) as [Q|(Q & _)]; discriminate).
        destruct X2 as [(Q & _)|[(Q & _)|(_ & _ & Er2)]]; [discriminate|discriminate|]. split; [right; split; [reflexivity|split; [exact Er2|exact NU]]|]. split; [intros U; contradiction|]. auto.
      + assert (ES : errs s2 = errs s1) by (destruct X2 as [(_ & _ & ->)|[(_ & _ & ->)|(-> & _)]]; [reflexivity|reflexivity|discriminate]).
        destruct ((r =? 0)%Z || (ssize_max E <? process_buffer_size (set_buffer_size n h1))) eqn:R0.
        * exists 0%Z, 32768, s2. split; [reflexivity|]. split; [left; split; [reflexivity|exact ES]|]. split; [intros _; exact SM|]. auto.
        * exists 0%Z, n, s2. split; [reflexivity|]. split; [left; split; [reflexivity|exact ES]|]. split; [|auto]. intros U. destruct (US U) as [->|(_ & Q)]; [discriminate|exact Q].
    - exists 0%Z, (process_buffer_size h1), s1. split; [unfold ret; now destruct h1|]. split; [left; now split|].
      split; [intros _; rewrite B1; unfold ssize_max; destruct (plat64 E); lia|]. auto. }
  destruct X as (r2 & n & s2 & H2 & R2 & PS & M2 & T2). erewrite bind_done by exact H2. cbn [fst snd]. clear H2 m1.
  set (h2 := set_buffer_size n h1).
  assert (I2 : inv s0 s2 h2).
  { apply (inv_mem s0 s1) with (h := h1) in M2 as I; [|exact I1|exact T2]. destruct I as [A B C D F G]. split; assumption. }
  assert (Ac2 : accounted s0 s2 h2).
  { intros p Hp Lp. apply (Ac1 p Hp). unfold live_at in *. now rewrite <- M2. }
  destruct R2 as [(-> & ES2)|(-> & ES2 & SN)].
  2:{ change (-1 =? -1)%Z with true. cbv iota. destruct (main_error_ok W s0 s2 h2 [] I2) as (s3 & H3 & W3 & U3 & L3 & T3 & K3 & Er3).
      exists 1%Z, [], s3. split; [exact H3|]. split; [exact W3|]. split; [exact U3|]. split; [left; now apply K3|].
      split; [right; split; [reflexivity|]; split; [now left|]; right; right; now left|]. split; [discriminate|]. intros _. right.
      apply (errors_added_same' true s0 s2); [exact Er3|]. now apply (errors_added_same true s0 s1). }
  assert (E2 : errs s2 = errs s0) by congruence.
  change (0 =? -1)%Z with false. cbv iota.
  (* the digest types *)
  set (m2 := match types with None => ret (0%Z, Some h2) | Some str => _ end).
  assert (X : exists r h3 s3, m2 s2 = Done (r, Some h3) s3 /\ inv s0 s3 h3 /\ no_contexts h3 /\ h_abort h3 = false /\ process_buffer_size h3 = n /\
     ((r = 0%Z /\ errs s3 = errs s2 /\ accounted s0 s3 h3 /\ forall a, calculate (slots h3 a) = true <-> asked split types a) \/
      (r = (-1)%Z /\ errors_added true s2 s3 /\ refusal E split d W signal size types s0 s3 /\
       (accounted s0 s3 h3 \/ exists str segs, types = Some str /\ split str = Some segs /\ In None segs)))).
  { unfold m2. destruct types as [str|].
    - destruct I2 as [A2 O2 C2 D2 F2 G2].
      destruct (set_types_ok E split h2 str true s2 A2 O2) as (r & h3 & s3 & H3 & W3 & O3 & U3 & T3 & L3 & Q1 & Q2 & Q3 & Q4 & Q5 & Q6 & Q7 & Q8 & X3).
      exists r, h3, s3. split; [exact H3|]. split; [|split; [|split; [|split]]].
      + split; try assumption; try lia.
        * eapply unchanged_trans; eassumption.
        * intros q [O|[O|(a & [O|O])]].
          -- apply D2. left. congruence.
          -- apply D2. right. left. congruence.
          -- apply D2. right. right. exists a. left. now rewrite <- Q3.
          -- destruct (Q7 a q O) as [X|X]; [apply D2; right; right; exists a; now right|lia].
      + intros a. rewrite Q3. apply NC1.
      + rewrite Q5. exact Ab1.
      + rewrite Q4. reflexivity.
      + destruct X3 as [(-> & Er3 & _ & K3 & xs & SP & S3)|[(-> & Er3 & K3 & SX)|(-> & Er3 & -> & xs & t & SP)]].
        * left. split; [reflexivity|]. split; [exact Er3|]. split; [exact (keeps_accounted _ _ _ _ _ K3 Ac2)|]. intros a. rewrite S3. change (calculate (slots h2 a)) with (calculate (slots h1 a)).
          rewrite Sel1. split.
          -- intros [X|(x & I & N)]; [left; destruct a; try discriminate; reflexivity|]. right. exists str, xs, x. auto.
          -- intros [->|(str' & xs' & x & Qs & SP' & I & N)]; [now left|]. injection Qs as <-. right. exists x. split; [|exact N].
             rewrite SP in SP'. injection SP' as SP'. assert (xs = xs'); [|now subst].
             clear - SP'. revert xs' SP'. induction xs as [|y ys IH]; intros [|z zs] Q; try discriminate; [reflexivity|]. injection Q as -> Q. f_equal. now apply IH.
        * right. split; [reflexivity|]. split; [exact Er3|]. split.
          { destruct SX as [SX|(i & Hi & SX)]; [right; right; right; left; exists str; split; [reflexivity|now left]|].
            right. left. exists i. split; [lia|exact SX]. }
          left. exact (keeps_accounted _ _ _ _ _ K3 Ac2).
        * assert (IN : In None (map Some xs ++ None :: t)) by (apply in_or_app; right; now left). right. split; [reflexivity|]. split; [exact Er3|]. split.
          { right. right. right. left. exists str. split; [reflexivity|]. right. eauto. }
          right. exists str, (map Some xs ++ None :: t). auto.
    - exists 0%Z, h2, s2. split; [reflexivity|]. split; [exact I2|]. split; [exact NC1|]. split; [exact Ab1|]. split; [reflexivity|]. left. split; [reflexivity|]. split; [reflexivity|]. split; [exact Ac2|].
      intros a. change (calculate (slots h2 a)) with (calculate (slots h1 a)). rewrite Sel1. split.
      + intros X. left. destruct a; try discriminate; reflexivity.
      + intros [->|(str & xs & x & Q & _)]; [reflexivity|discriminate]. }
  destruct X as (r3 & h3 & s3 & H3 & I3 & NC3 & Ab3 & Pn & X3). erewrite bind_done by exact H3. cbn [fst snd]. clear H3 m2.
  erewrite bind_done by reflexivity. destruct X3 as [(-> & Er3 & Ac3 & Sel3)|(-> & Er3 & Rf3 & X3)].
  2:{ change (-1 =? -1)%Z with true. cbv iota. destruct (main_error_ok W s0 s3 h3 [] I3) as (s4 & H4 & W4 & U4 & L4 & T4 & K4 & Er4).
      exists 1%Z, [], s4. split; [exact H4|]. split; [exact W4|]. split; [exact U4|]. split; [destruct X3 as [X3|X3]; [left; now apply K4|right; now right]|].
      split; [right; split; [reflexivity|]; split; [now left|]; unfold refusal, some_alloc_failed in *; rewrite T4; exact Rf3|]. split; [discriminate|]. intros _. right.
      apply (errors_added_same' true s0 s3); [exact Er4|]. now apply (errors_added_same true s0 s2). }
  assert (E3 : errs s3 = errs s0) by congruence.
  change (0 =? -1)%Z with false. cbv iota. clear h1 s1 W1 O1 Sel1 NC1 B1 Ab1 Ac1 U1 E1 L1 N1 T1 I1 s2 M2 T2 h2 I2 Ac2 ES2 E2 Er3.
  (* opening the input *)
  assert (X : exists s4, sum_handle_open_input W (Some h3) true s3 = Done (if in_open W then 1 else -1)%Z s4 /\ mem s4 = mem s3 /\ tries s4 = tries s3 /\
    if in_open W then errs s4 = errs s3 else errors_added true s3 s4).
  { cbn [sum_handle_open_input]. destruct (in_open W); [now exists s3|]. eexists. split; [apply fail_eq|]. split; [reflexivity|]. split; [reflexivity|].
    exists E_IO_OPEN_FAILED, []. reflexivity. }
  destruct X as (s4 & H4 & M4 & T4 & Er4). erewrite bind_done by exact H4. clear H4.
  assert (I4 : inv s0 s4 h3) by (now apply (inv_mem s0 s3)).
  assert (Ac4 : accounted s0 s4 h3) by (intros p Hp Lp; apply (Ac3 p Hp); unfold live_at in *; now rewrite <- M4).
  assert (More4 : more s0 s4) by (destruct (in_open W); [apply more_same; congruence|apply more_added; now apply (errors_added_same true s0 s3)]).
  assert (EndEmpty : forall t s h, more s0 s -> inv s0 s h -> accounted s0 s h -> arrived signal t = true ->
    exists code out s', main_end W signal t h [] s = Done (code, out) s' /\ sum_result E split d W signal size types s0 code out s').
  { intros t s h Mo I Ac A. destruct (main_end_ok W signal t s0 s h [] I) as (code & out & s' & H & W' & U & L & T & K & X & _ & Y).
    exists code, out, s'. split; [exact H|]. split; [exact W'|]. split; [exact U|]. split; [left; now apply K|].
    assert (SN : signal <> None) by exact (arrived_some _ _ A).
    assert (C1 : code = 1%Z) by (destruct X as [(_ & _ & _ & _ & X)|[(-> & _)|(-> & _)]]; [congruence|reflexivity|reflexivity]).
    split; [right|split; [congruence|]; intros _; destruct (Y C1) as [->|Y']; [left; now exists []|right; now apply (added_after s0 s)]].
    destruct X as [(_ & _ & _ & _ & X)|[(-> & -> & _)|(-> & -> & _)]]; [congruence| |]; (split; [reflexivity|]; split; [auto|now left]). }
  destruct (arrived signal 0) eqn:A0; [apply EndEmpty; [exact More4|exact I4|exact Ac4|exact (arrived_later _ 0 1 ltac:(lia) A0)]|].
  assert (Err : forall s h, errors_added true s0 s -> inv s0 s h -> accounted s0 s h -> refusal E split d W signal size types s0 s ->
    exists code out s', main_error W (Some h) [] s = Done (code, out) s' /\ sum_result E split d W signal size types s0 code out s').
  { intros s h Ad I Ac Rf. destruct (main_error_ok W s0 s h [] I) as (s' & H & W' & U & L & T & K & Er).
    exists 1%Z, [], s'. split; [exact H|]. split; [exact W'|]. split; [exact U|]. split; [left; now apply K|].
    split; [right; split; [reflexivity|]; split; [now left|]; unfold refusal, some_alloc_failed in *; rewrite T; exact Rf|]. split; [discriminate|]. intros _. right.
    now apply (errors_added_same' true s0 s). }
  destruct (in_open W) eqn:OP.
  2:{ change (negb (-1 =? 1)%Z) with true. cbv iota. apply Err; [now apply (errors_added_same true s0 s3)|exact I4|exact Ac4|]. right. right. right. right. now left. }
  change (negb (1 =? 1)%Z) with false. cbv iota.
  (* processing *)
  destruct (process_input_ok E W signal 1 h3 true s4 IO (i_wf _ _ _ I4) (i_ok _ _ _ I4)) as (r & h5 & k & s5 & H5 & W5 & O5 & S5 & B5 & AB5 & K5 & T5 & L5 & F5 & J5 & KN & KZ & X5).
  erewrite bind_done by exact H5. cbv iota beta. erewrite bind_done by reflexivity. clear H5.
  assert (I5 : inv s0 s5 h5) by (eapply (inv_process s0 s4 s5 h3 h5); eassumption).
  assert (Ac5 : accounted s0 s5 h5) by exact (keeps_accounted _ _ _ _ _ K5 Ac4).
  assert (E4 : errs s4 = errs s0) by congruence.
  assert (More5 : more s0 s5) by (destruct X5 as [(_ & Er5 & _)|(_ & Er5 & _)]; [apply more_same; congruence|apply more_added; now apply (errors_added_same true s0 s4)]).
  destruct (arrived signal (1 + k)) eqn:A1; [apply EndEmpty; [exact More5|exact I5|exact Ac5|exact (arrived_later _ (1 + k) (2 + k) ltac:(lia) A1)]|].
  destruct X5 as [(-> & E5 & _ & _ & _ & msize & cnt & MS & N5 & ND & D5 & Kn & RD & X5)|(-> & X5)].
  2:{ change (negb (-1 =? 1)%Z) with true. cbv iota. destruct X5 as (Er5 & _ & X5). apply Err; [now apply (errors_added_same true s0 s4)|exact I5|exact Ac5|]. unfold refusal. unfold process_trouble in X5. rewrite Pn in X5.
      destruct X5 as [X5|[X5|[X5|[(i & Hi & X5)|[(a & Ca & X5)|(m & n' & Q1 & Q2 & Q3 & j & Q4 & X5)]]]]].
      - right. right. left. intros U. apply PS in U. lia.
      - right. right. left. intros U. apply PS in U. lia.
      - right. right. right. right. right. now left.
      - right. left. exists i. split; [pose proof (i_tries _ _ _ I4); lia|exact X5].
      - elim X5. apply NC3.
      - destruct X5 as [X5|[X5|(X5 & X6)]]; [right; right; right; right; right; right; left; exists j; auto..|].
        right. right. right. right. right. right. right. exists m. split; [exact Q1|lia]. }
  change (negb (1 =? 1)%Z) with false. cbv iota.
  assert (cnt = msize).
  { destruct X5 as [X5|(j & Q & [X5|X5])]; [exact X5|congruence|]. rewrite (arrived_later signal (1 + j) (1 + k)) in A1; [discriminate|lia|exact X5]. }
  subst cnt.
  assert (Bd : Forall is_byte (firstn (N.to_nat msize) (in_data W))) by (apply Forall_firstn, IO).
  erewrite bind_done by (apply (fprint_ok s5 h5 (firstn (N.to_nat msize) (in_data W))); assumption). cbn [fst snd].
  change (negb (1 =? 1)%Z) with false. cbv iota.
  destruct (main_end_ok W signal (2 + k) s0 s5 h5 (digest_lines (fun a => calculate (slots h5 a)) (firstn (N.to_nat msize) (in_data W))) I5)
    as (code & out & s' & H & W' & U & L & T & K & X & Y0 & Y1).
  exists code, out, s'. split; [exact H|]. split; [exact W'|]. split; [exact U|]. split; [left; now apply K|].
  split; [left|split; [intros Q; rewrite (Y0 Q); congruence|intros Q; destruct (Y1 Q) as [->|Y]; [left; eauto|right; apply (errors_added_same true s0 s5); [congruence|exact Y]]]].
  exists (fun a => calculate (slots h5 a)), msize, k. split.
  { intros a. destruct S5 as (_ & _ & S5). destruct (S5 a) as (-> & _). apply Sel3. }
  split; [exact OP|]. split; [exact MS|]. split; [exact ND|]. split; [now apply KN|]. split; [exact A1|]. split; [exact RD|]. exact X.
Qed.
