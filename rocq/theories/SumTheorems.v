(* The statements of PropSum.v. *)
From Coq Require Import String Ascii Arith NArith ZArith List Bool Lia.
From Verif Require Import Words Spec Machine MachineFacts Context ContextFacts ReprFacts DigestFacts Hash HashFacts HmacFacts
  Vocab HistoryFacts LibProofs LibTheorems ToolStrings ToolVocab ToolStringsFacts ToolConvertFacts ToolProofs SumHandle SumVocab SumFacts SumProcess SumMain
  SumSelect SumProgram.
Import ListNotations.
Open Scope N_scope.

Lemma run_process : forall E W signal t0 h e s r h' k s', input_ok W -> good_state s -> handle_ok s h ->
  sum_handle_process_input E W signal t0 (Some h) e s = Done (r, h', k) s' -> exists h1, h' = Some h1 /\ process_ok E W signal t0 h e s r h1 k s'.
Proof.
  intros E W signal t0 h e s r h' k s' I G H R. destruct (process_input_ok E W signal t0 h e s I (proj1 (good_wf s) G) H) as (r1 & h1 & k1 & s1 & H1 & P1).
  rewrite H1 in R. injection R as <- <- <- <-. eauto.
Qed.

Lemma process_returns : forall E W signal t0 h e s, input_ok W -> good_state s -> handle_ok s h ->
  exists r h' k s', sum_handle_process_input E W signal t0 (Some h) e s = Done (r, Some h', k) s' /\ (r = 1%Z \/ r = (-1)%Z) /\
  good_state s' /\ handle_ok s' h' /\ same_selection h h' /\ process_buffer_size h' = process_buffer_size h /\
  (forall q, (q < length (mem s))%nat -> ~ owned h q -> nth_error (mem s') q = nth_error (mem s) q) /\
  (forall s0, accounted s0 s h -> accounted s0 s' h').
Proof.
  intros E W signal t0 h e s I G H. destruct (process_input_ok E W signal t0 h e s I (proj1 (good_wf s) G) H)
    as (r & h' & k & s' & H1 & W1 & O1 & S1 & B1 & _ & K1 & _ & _ & F1 & _ & _ & _ & X1).
  exists r, h', k, s'. split; [exact H1|]. split; [destruct X1 as [(-> & _)|(-> & _)]; auto|]. split; [now apply good_wf|].
  split; [exact O1|]. split; [exact S1|]. split; [exact B1|]. split; [exact F1|]. intros s0. exact (keeps_accounted _ _ _ _ _ K1).
Qed.

Lemma process_digests : forall E W signal t0 h e s h' k s', input_ok W -> good_state s -> handle_ok s h ->
  sum_handle_process_input E W signal t0 (Some h) e s = Done (1%Z, Some h', k) s' -> h_abort h' = false ->
  exists size, in_size W = Some size /\ size <= N.of_nat (length (in_data W)) /\
  has_digests s' h' (firstn (N.to_nat size) (in_data W)) /\ errs s' = errs s.
Proof.
  intros E W signal t0 h e s h' k s' I G H R A. destruct (run_process _ _ _ _ _ _ _ _ _ _ _ I G H R) as (h1 & Q & P). injection Q as <-.
  destruct P as (_ & _ & _ & _ & AB & _ & _ & _ & _ & _ & _ & _ & [(_ & Er & _ & _ & _ & size & n & IS & N1 & N2 & D & _ & _ & X)|(Q & _)]); [|discriminate].
  rewrite A in AB. symmetry in AB. apply orb_false_iff in AB as (AB1 & AB2). assert (n = size).
  { destruct X as [X|(j & -> & [X|X])]; [exact X|congruence|]. replace (t0 + S j - 1)%nat with (t0 + j)%nat in AB2 by lia. rewrite X in AB2. discriminate. }
  subst n. exists size. auto.
Qed.

Lemma process_complete : forall E W signal t0 h e s, input_ok W -> good_state s -> handle_ok s h ->
  (forall i, alloc_ok E i = true) -> 0 < process_buffer_size h <= ssize_max E -> no_contexts h ->
  (exists size, in_size W = Some size /\ size <= N.of_nat (length (in_data W))) -> (forall j, exists n, in_read W j = Some n /\ n <> 0) ->
  exists h' k s', sum_handle_process_input E W signal t0 (Some h) e s = Done (1%Z, Some h', k) s' /\ (h_abort h = false -> signal = None -> h_abort h' = false).
Proof.
  intros E W signal t0 h e s I G H Al B NC (size & IS & Sz) RD. destruct (process_input_ok E W signal t0 h e s I (proj1 (good_wf s) G) H)
    as (r & h' & k & s' & H1 & _ & _ & _ & _ & AB & _ & _ & _ & _ & _ & _ & _ & [(-> & _)|(-> & _ & _ & X)]).
  { exists h', k, s'. split; [exact H1|]. intros A ->. rewrite AB, A. cbn [arrived]. now rewrite andb_false_r. }
  exfalso. destruct X as [X|[X|[X|[(i & _ & X)|[(a & _ & X)|(m & n' & Q1 & Q2 & Q3 & j & Q4 & X)]]]]]; try lia; try congruence.
  destruct (RD j) as (n & Hn & Nn). destruct X as [X|[X|(X & X')]]; [congruence|congruence|].
  rewrite IS in Q1. injection Q1 as <-. lia.
Qed.

Lemma process_failure : forall E W signal t0 h e s h' k s', input_ok W -> good_state s -> handle_ok s h ->
  sum_handle_process_input E W signal t0 (Some h) e s = Done ((-1)%Z, Some h', k) s' ->
  same_strings s s' h /\ errors_added e s s'.
Proof.
  intros E W signal t0 h e s h' k s' I G H R. destruct (run_process _ _ _ _ _ _ _ _ _ _ _ I G H R) as (h1 & Q & P).
  destruct P as (_ & _ & _ & _ & _ & _ & _ & _ & _ & _ & _ & _ & [(X & _)|(_ & Er & SS & _)]); [discriminate|]. now split.
Qed.

Lemma process_bad_read : forall E W signal t0 h e s r h' k s', input_ok W -> good_state s -> handle_ok s h ->
  sum_handle_process_input E W signal t0 (Some h) e s = Done (r, Some h', k) s' ->
  (exists j, (j < k)%nat /\ (in_read W j = None \/ in_read W j = Some 0)) \/
  (exists size, in_size W = Some size /\ N.of_nat (length (in_data W)) < size /\ h_abort h' = false) \/ in_size W = None -> r = (-1)%Z.
Proof.
  intros E W signal t0 h e s r h' k s' I G H R B. pose proof R as R0. destruct (run_process _ _ _ _ _ _ _ _ _ _ _ I G H R) as (h1 & Q & P). injection Q as <-.
  destruct P as (_ & _ & _ & _ & _ & _ & _ & _ & _ & _ & _ & _ & [(-> & _ & _ & _ & _ & size & n & IS & _ & _ & _ & _ & RD & _)|(-> & _)]); [|reflexivity].
  exfalso. destruct B as [(j & Hj & B)|[(size' & IS' & Sz & A)|B]]; [| |congruence].
  - destruct (RD j Hj) as (m & Hm & Nm). destruct B as [B|B]; congruence.
  - destruct (process_digests _ _ _ _ _ _ _ _ _ _ I G H R0 A) as (size'' & IS'' & Sz' & _). rewrite IS' in IS''. injection IS'' as <-. lia.
Qed.

Lemma process_reads : forall E W signal t0 h e s r h' k s' size, input_ok W -> good_state s -> handle_ok s h ->
  sum_handle_process_input E W signal t0 (Some h) e s = Done (r, h', k) s' -> in_size W = Some size -> (k <= N.to_nat size)%nat.
Proof.
  intros E W signal t0 h e s r h' k s' size I G H R IS. destruct (run_process _ _ _ _ _ _ _ _ _ _ _ I G H R) as (h1 & Q & P).
  destruct P as (_ & _ & _ & _ & _ & _ & _ & _ & _ & _ & K & _). now apply K.
Qed.

Lemma process_partial : forall E W signal t0 h e s h' k s', input_ok W -> good_state s -> handle_ok s h ->
  sum_handle_process_input E W signal t0 (Some h) e s = Done (1%Z, Some h', k) s' ->
  exists size n, in_size W = Some size /\ n <= size /\ n <= N.of_nat (length (in_data W)) /\
  has_digests s' h' (firstn (N.to_nat n) (in_data W)) /\ (n = size \/ h_abort h' = true).
Proof.
  intros E W signal t0 h e s h' k s' I G H R. destruct (run_process _ _ _ _ _ _ _ _ _ _ _ I G H R) as (h1 & Q & P). injection Q as <-.
  destruct P as (_ & _ & _ & _ & AB & _ & _ & _ & _ & _ & _ & _ & [(_ & Er & _ & _ & _ & size & n & IS & N1 & N2 & D & _ & _ & X)|(Q & _)]); [|discriminate].
  exists size, n. split; [exact IS|]. split; [exact N1|]. split; [exact N2|]. split; [exact D|].
  destruct X as [X|(j & -> & X)]; [now left|right]. rewrite AB. replace (t0 + S j - 1)%nat with (t0 + j)%nat by lia.
  destruct X as [-> | ->]; [reflexivity|]. cbn. apply orb_true_r.
Qed.

Lemma process_again : forall E E' W W' signal signal' t0 t0' h h' e e' k s s', input_ok W -> input_ok W' -> good_state s -> handle_ok s h ->
  (exists a, calculate (slots h a) = true) ->
  sum_handle_process_input E W signal t0 (Some h) e s = Done (1%Z, Some h', k) s' ->
  exists h'' k' s'', sum_handle_process_input E' W' signal' t0' (Some h') e' s' = Done ((-1)%Z, Some h'', k') s'' /\ same_strings s' s'' h'.
Proof.
  intros E E' W W' signal signal' t0 t0' h h' e e' k s s' I I' G H (a & Ca) R. destruct (run_process _ _ _ _ _ _ _ _ _ _ _ I G H R) as (h1 & Q & P). injection Q as <-.
  destruct P as (W1 & O1 & (_ & _ & S1) & _ & _ & _ & _ & _ & _ & _ & _ & _ & [(_ & _ & _ & _ & CT & _)|(Q & _)]); [|discriminate].
  assert (Ca' : calculate (slots h' a) = true) by (rewrite (proj1 (S1 a)); exact Ca).
  destruct (process_input_ok E' W' signal' t0' h' e' s' I' W1 O1)
    as (r & h'' & k' & s'' & H2 & _ & _ & _ & _ & _ & _ & _ & _ & _ & _ & _ & _ & [(-> & _ & _ & CN & _)|(-> & _ & SS & _)]).
  - elim (CT a Ca'). now apply CN.
  - eauto.
Qed.

(* ------------------------------------------------------------- selection *)

Lemma types_selected : forall E split h str xs e s, good_state s -> handle_ok s h -> (forall i, alloc_ok E i = true) -> split str = Some (map Some xs) ->
  exists h' s', sum_handle_set_digest_types E split (Some h) str e s = Done (0%Z, Some h') s' /\ good_state s' /\ handle_ok s' h' /\ unchanged s s' /\
  (forall s0, accounted s0 s h -> accounted s0 s' h') /\
  forall a, calculate (slots h' a) = true <-> calculate (slots h a) = true \/ exists x, In x xs /\ is_name a x.
Proof.
  intros E split h str xs e s G H Al SP. destruct (set_types_ok E split h str e s (proj1 (good_wf s) G) H)
    as (r & h' & s' & H1 & W1 & O1 & U1 & _ & _ & _ & _ & _ & _ & _ & _ & _ & _ & X1).
  assert (Inj : forall ys, map Some xs = map Some ys -> xs = ys).
  { clear. induction xs as [|x xs IH]; intros [|y ys] Q; try discriminate; [reflexivity|]. injection Q as -> Q. f_equal. now apply IH. }
  destruct X1 as [(-> & _ & _ & K1 & ys & SP' & S1)|[(-> & _ & _ & [X|(i & _ & X)])|(-> & _ & _ & ys & t & SP')]].
  - exists h', s'. split; [exact H1|]. split; [now apply good_wf|]. split; [exact O1|]. split; [exact U1|].
    split; [intros s0; exact (keeps_accounted _ _ _ _ _ K1)|].
    rewrite SP in SP'. injection SP' as SP'. rewrite (Inj _ SP'). exact S1.
  - congruence.
  - rewrite Al in X. discriminate.
  - exfalso. rewrite SP in SP'. injection SP' as SP'. clear - SP'. revert ys SP'. induction xs as [|x xs IH]; intros [|y ys] Q; try discriminate.
    injection Q as _ Q. exact (IH ys Q).
Qed.

Lemma types_any : forall E split h str e s, good_state s -> handle_ok s h ->
  exists r h' s', sum_handle_set_digest_types E split (Some h) str e s = Done (r, Some h') s' /\ (r = 0%Z \/ r = (-1)%Z /\ errors_added e s s') /\
  good_state s' /\ handle_ok s' h' /\ unchanged s s' /\
  (forall a, calculate (slots h a) = true -> calculate (slots h' a) = true) /\
  ((forall segs, split str = Some segs -> ~ In None segs) -> forall s0, accounted s0 s h -> accounted s0 s' h').
Proof.
  intros E split h str e s G H. destruct (set_types_ok E split h str e s (proj1 (good_wf s) G) H)
    as (r & h' & s' & H1 & W1 & O1 & U1 & _ & _ & _ & _ & _ & _ & _ & _ & _ & M1 & X1).
  exists r, h', s'. split; [exact H1|].
  destruct X1 as [(-> & _ & _ & K1 & _)|[(-> & Er & K1 & _)|(-> & Er & -> & ys & t & SP')]].
  - split; [now left|]. split; [now apply good_wf|]. split; [exact O1|]. split; [exact U1|]. split; [exact M1|]. intros _ s0. exact (keeps_accounted _ _ _ _ _ K1).
  - split; [now right|]. split; [now apply good_wf|]. split; [exact O1|]. split; [exact U1|]. split; [exact M1|]. intros _ s0. exact (keeps_accounted _ _ _ _ _ K1).
  - split; [now right|]. split; [now apply good_wf|]. split; [exact O1|]. split; [exact U1|]. split; [exact M1|]. intros N. elim (N _ SP').
    apply in_or_app. right. now left.
Qed.

(* names that nothing knows *)
Lemma types_unknown : forall E split h str xs e s, good_state s -> handle_ok s h -> (forall i, alloc_ok E i = true) -> split str = Some (map Some xs) ->
  (forall a x, In x xs -> ~ is_name a x) ->
  exists h' s', sum_handle_set_digest_types E split (Some h) str e s = Done (0%Z, Some h') s' /\ errs s' = errs s /\
  forall a, calculate (slots h' a) = calculate (slots h a).
Proof.
  intros E split h str xs e s G H Al SP N. destruct (types_selected E split h str xs e s G H Al SP) as (h' & s' & H1 & _ & _ & _ & _ & S1).
  destruct (set_types_ok E split h str e s (proj1 (good_wf s) G) H) as (r & h2 & s2 & H2 & _ & _ & _ & _ & _ & _ & _ & _ & _ & _ & _ & _ & _ & X2).
  rewrite H1 in H2. injection H2 as <- <- <-. exists h', s'. split; [exact H1|]. split.
  - destruct X2 as [(_ & X & _)|[(X & _)|(X & _)]]; [exact X|discriminate|discriminate].
  - intros a. apply Bool.eq_iff_eq_true. rewrite S1. split; [|now left]. intros [X|(x & I & X)]; [exact X|]. elim (N a x I X).
Qed.

(* ------------------------------------------------------------- buffer size *)

Lemma size_stored : forall E verbose d h ds sp l f ut u tail rest e s, point d -> Forall numeric ds -> sp = [] \/ sp = [32] ->
  In (l, f) letters -> In (ut, u) units_texts \/ (ut = EmptyString /\ tail = [] /\ u = 1024) -> Forall (fun c => c <> 0) tail ->
  value_of ds * u ^ f < 2 ^ 64 ->
  let t := ds ++ sp ++ chars l ++ chars ut ++ tail in let n := value_of ds * u ^ f in
  sum_handle_set_process_buffer_size E verbose (Some d) (Some h) (t ++ 0 :: rest) (N.of_nat (length t)) e s =
  if n <=? ssize_max E then Done (1%Z, Some (set_buffer_size n h)) s else Done (0%Z, Some h) s.
Proof.
  intros E verbose d h ds sp l f ut u tail rest e s P F Sp L U T V t n. cbn [sum_handle_set_process_buffer_size].
  erewrite bind_done by (unfold t; now apply (convert_exact verbose d ds sp l f ut u tail rest e s)). cbn [fst snd].
  change (1 =? -1)%Z with false. change (1 =? 0)%Z with false. cbn [negb]. cbv iota zeta. fold n.
  destruct (N.ltb_spec (ssize_max E) n) as [B|B], (N.leb_spec n (ssize_max E)) as [C|C]; try lia; [reflexivity|].
  rewrite N.mod_small; [reflexivity|]. unfold ssize_max, size_mod in *. destruct (plat64 E); lia.
Qed.

Lemma size_any : forall E verbose d h t rest e s, point_or_none d -> Forall (fun c => c <> 0) t ->
  exists r n s', sum_handle_set_process_buffer_size E verbose d (Some h) (t ++ 0 :: rest) (N.of_nat (length t)) e s = Done (r, Some (set_buffer_size n h)) s' /\
  ((r = 1%Z /\ n <= ssize_max E /\ s' = s) \/ (r = 0%Z /\ n = process_buffer_size h /\ s' = s) \/
   (r = (-1)%Z /\ n = process_buffer_size h /\ mem s' = mem s /\ errors_added e s s')).
Proof.
  intros E verbose d h t rest e s P F. destruct (set_size_ok E verbose d h t rest e s) as (r & n & s' & H & M & T & X); [|exact F|].
  { destruct d as [x|]; [right; exists x; split; [reflexivity|]; now apply P|now left]. }
  exists r, n, s'. split; [exact H|]. destruct X as [X|[X|(X & Y & Z)]]; [now left|right; now left|right; right; auto].
Qed.

Lemma size_zero : forall E W signal t0 h e s, good_state s -> handle_ok s h -> process_buffer_size h = 0 ->
  sum_handle_process_input E W signal t0 (Some h) e s = Done ((-1)%Z, Some h, 0%nat) (add_err e E_ARGUMENT_VALUE_OUT_OF_BOUNDS s).
Proof. intros E W signal t0 h e s _ _ Z. cbn [sum_handle_process_input]. rewrite Z. reflexivity. Qed.

(* ------------------------------------------------------------- resources *)

Lemma initialize_result : forall E e s, good_state s ->
  exists r h s', sum_handle_initialize E (Some None) e s = Done (r, h) s' /\ unchanged s s' /\ good_state s' /\
  ((r = 1%Z /\ errs s' = errs s /\ exists h', h = Some h' /\ handle_ok s' h' /\ accounted s s' h' /\ no_contexts h' /\ (forall q, owned h' q -> (length (mem s) <= q)%nat) /\
    (forall a, calculate (slots h' a) = true <-> a = MD5) /\ process_buffer_size h' = 32768 /\ h_abort h' = false) \/
   (r = (-1)%Z /\ h = None /\ errors_added e s s' /\ some_alloc_failed E s s' /\
    (alloc_ok E (tries s) = false \/ alloc_ok E (S (tries s)) = false -> no_leak s s'))).
Proof.
  intros E e s G. pose proof (initialize_ok E e s (proj1 (good_wf s) G)) as X. cbv zeta in X.
  destruct (alloc_ok E (tries s) && alloc_ok E (S (tries s)) && alloc_ok E (S (S (tries s)))) eqn:A.
  - destruct X as (h & s' & H & W & O & (F1 & F2 & F3 & F4) & Ac & U & Er & L & N & T). exists 1%Z, (Some h), s'. split; [exact H|]. split; [exact U|].
    split; [now apply good_wf|]. left. split; [reflexivity|]. split; [exact Er|]. exists h. split; [reflexivity|]. split; [exact O|]. split; [exact Ac|]. split; [exact F2|].
    split; [exact N|]. split; [|now split]. intros a. rewrite F1. destruct a; split; try reflexivity; discriminate.
  - destruct X as (s' & H & W & U & Er & F & L & K). exists (-1)%Z, None, s'. split; [exact H|]. split; [exact U|]. split; [now apply good_wf|]. right.
    split; [reflexivity|]. split; [reflexivity|]. split; [exact Er|]. split; [exact F|]. intros [Q|Q]; rewrite Q, ?andb_false_r in K; exact K.
Qed.

Lemma initialize_leaks : forall E e s, good_state s -> alloc_ok E (tries s) = true -> alloc_ok E (S (tries s)) = true -> alloc_ok E (S (S (tries s))) = false ->
  exists s', sum_handle_initialize E (Some None) e s = Done ((-1)%Z, None) s' /\ ~ no_leak s s'.
Proof.
  intros E e s G A1 A2 A3. pose proof (initialize_ok E e s (proj1 (good_wf s) G)) as X. cbv zeta in X. rewrite A1, A2, A3 in X. cbn [andb] in X.
  destruct X as (s' & H & _ & _ & _ & _ & L & K). exists s'. split; [exact H|]. intros N.
  destruct (proj2 (K (S (length (mem s))) ltac:(lia)) eq_refl) as (c & Hc & Lc). rewrite (N _ c (Nat.le_succ_diag_r _) Hc) in Lc. discriminate.
Qed.

Lemma free_everything : forall W h e s, good_state s -> handle_ok s h ->
  exists s', sum_handle_free W (Some (Some h)) e s = Done ((if in_free W then 1 else -1)%Z, None) s' /\ good_state s' /\
  (if in_free W then errs s' = errs s else errors_added e s s') /\
  (forall q, owned h q -> ~ live_at s' q) /\ (forall q, ~ owned h q -> nth_error (mem s') q = nth_error (mem s) q) /\
  (forall s0, accounted s0 s h -> no_leak s0 s').
Proof.
  intros W h e s G H. destruct (free_ok W h e s (proj1 (good_wf s) G) H) as (s' & R & W' & L & T & Er & S & K).
  exists s'. split; [exact R|]. split; [now apply good_wf|]. split; [exact Er|]. split; [exact K|]. split; [exact S|].
  intros s0 Ac p c Hp Hc. destruct (live c) eqn:Lc; [|reflexivity]. exfalso.
  assert (Lv : live_at s' p) by (exists c; now split). assert (No : ~ owned h p) by (intros O; exact (K p O Lv)).
  apply No, Ac; [exact Hp|]. exact (live_at_same _ _ _ (S p No) Lv).
Qed.

Lemma print_digests : forall s h m e, Forall is_byte m -> handle_ok s h -> has_digests s h m ->
  sum_handle_hash_values_fprint (Some h) true e s = Done (1%Z, digest_lines (fun a => calculate (slots h a)) m) s.
Proof. exact fprint_ok. Qed.

(* ------------------------------------------------------------- hmacsum *)

Lemma program_result : forall E split verbose d W signal size types s0, good_state s0 -> input_ok W -> size_argument size -> point_or_none d ->
  exists code out s', hmacsum E split verbose d W signal size types s0 = Done (code, out) s' /\ good_state s' /\ unchanged s0 s' /\
  ((exists selected n k, (forall a, selected a = true <-> asked split types a) /\ in_size W = Some n /\ n <= N.of_nat (length (in_data W)) /\
      (k <= N.to_nat n)%nat /\ arrived signal (1 + k) = false /\ (forall j, (j < k)%nat -> exists n, in_read W j = Some n /\ n <> 0) /\
      let text := digest_lines selected (firstn (N.to_nat n) (in_data W)) in
      (code = 0%Z /\ out = text /\ arrived signal (2 + k) = false) \/
      (code = 1%Z /\ out = text /\ (in_close W = false \/ in_free W = false)) \/
      (code = 1%Z /\ out = text ++ aborted_text /\ arrived signal (2 + k) = true)) \/
   (code = 1%Z /\ (out = [] \/ out = aborted_text /\ signal <> None) /\ refusal E split d W signal size types s0 s')) /\
  (no_leak s0 s' \/ some_alloc_failed E s0 s' \/ exists str segs, types = Some str /\ split str = Some segs /\ In None segs).
Proof.
  intros E split verbose d W signal size types s0 G I S P. destruct (hmacsum_ok E split verbose d W signal size types s0 (proj1 (good_wf s0) G) I S P)
    as (code & out & s' & H & W' & U & L & X & _). exists code, out, s'. split; [exact H|]. split; [now apply good_wf|]. split; [exact U|]. split; [|exact L].
  destruct X as [(sel & n & k & S1 & _ & S3 & S4 & S5 & S6 & S7 & X)|X]; [left|right; exact X].
  exists sel, n, k. split; [exact S1|]. split; [exact S3|]. split; [exact S4|]. split; [exact S5|]. split; [exact S6|]. split; [exact S7|].
  destruct X as [(X1 & X2 & _ & _ & X3)|[X|X]]; [left; auto|right; left; exact X|right; right; exact X].
Qed.

Lemma program_reports : forall E split verbose d W signal size types s0 code out s', good_state s0 -> input_ok W -> size_argument size -> point_or_none d ->
  hmacsum E split verbose d W signal size types s0 = Done (code, out) s' ->
  (code = 0%Z -> errs s' = errs s0) /\ (code <> 0%Z -> (exists t, out = t ++ aborted_text) \/ errors_added true s0 s').
Proof.
  intros E split verbose d W signal size types s0 code out s' G I S P R. destruct (hmacsum_ok E split verbose d W signal size types s0 (proj1 (good_wf s0) G) I S P)
    as (code' & out' & s'' & H & _ & _ & _ & X & Y0 & Y1). rewrite R in H. injection H as <- <- <-. split; [exact Y0|]. intros N. apply Y1.
  destruct X as [(sel & n & k & _ & _ & _ & _ & _ & _ & _ & [(Q & _)|[(Q & _)|(Q & _)]])|(Q & _)]; congruence.
Qed.

Lemma program_completes : forall E split verbose d W size types s0, good_state s0 -> input_ok W -> point_or_none d ->
  size_argument size -> usable_size d size ->
  (forall i, alloc_ok E i = true) -> in_open W = true -> in_close W = true -> in_free W = true ->
  (exists n, in_size W = Some n /\ n <= N.of_nat (length (in_data W))) -> (forall j, exists n, in_read W j = Some n /\ n <> 0) ->
  (forall str, types = Some str -> exists xs, split str = Some (map Some xs)) ->
  exists selected n s', (forall a, selected a = true <-> asked split types a) /\ in_size W = Some n /\
  hmacsum E split verbose d W None size types s0 = Done (0%Z, digest_lines selected (firstn (N.to_nat n) (in_data W))) s' /\ no_leak s0 s'.
Proof.
  intros E split verbose d W size types s0 G I P SA US Al OP CL FR (n & IS & Sz) RD SP.
  destruct (program_result E split verbose d W None size types s0 G I SA P) as (code & out & s' & H & _ & _ & X & L).
  assert (NoA : ~ some_alloc_failed E s0 s') by (intros (i & _ & A); rewrite Al in A; discriminate).
  assert (NoN : ~ exists str segs, types = Some str /\ split str = Some segs /\ In None segs).
  { intros (str & segs & Q & Q' & IN). destruct (SP str Q) as (xs & SX). rewrite SX in Q'. injection Q' as <-. apply in_map_iff in IN as (x & Qx & _). discriminate. }
  destruct X as [(sel & m & k & S1 & S3 & S4 & S5 & S6 & S7 & X)|(_ & _ & R)].
  - exists sel, m, s'. split; [exact S1|]. split; [exact S3|]. split; [|destruct L as [L|[L|L]]; [exact L|contradiction|contradiction]].
    destruct X as [(-> & -> & _)|[(_ & _ & [X|X])|(_ & _ & X)]]; [exact H|congruence|congruence|discriminate].
  - exfalso. destruct R as [R|[R|[R|[(str & Q & [R|(segs & R & IN)])|[R|[R|[(j & R)|(m & R & R')]]]]]]]; try congruence; try contradiction.
    + destruct (SP str Q) as (xs & SX). congruence.
    + apply NoN. eauto.
    + destruct (RD j) as (m & Hm & Nm). destruct R as [R|R]; congruence.
    + rewrite IS in R. injection R as <-. lia.
Qed.

(* two runs over the same file *)
Lemma process_same : forall E1 E2 W1 W2 signal1 signal2 t1 t2 h1 h2 e1 e2 s1 s2 h1' h2' k1 k2 s1' s2' a q1 q2, input_ok W1 -> input_ok W2 ->
  good_state s1 -> good_state s2 -> handle_ok s1 h1 -> handle_ok s2 h2 -> in_data W1 = in_data W2 -> in_size W1 = in_size W2 ->
  sum_handle_process_input E1 W1 signal1 t1 (Some h1) e1 s1 = Done (1%Z, Some h1', k1) s1' -> h_abort h1' = false ->
  sum_handle_process_input E2 W2 signal2 t2 (Some h2) e2 s2 = Done (1%Z, Some h2', k2) s2' -> h_abort h2' = false ->
  calculate (slots h1' a) = true -> calculate (slots h2' a) = true -> hash_string (slots h1' a) = Some q1 -> hash_string (slots h2' a) = Some q2 ->
  nth_error (mem s1') q1 = nth_error (mem s2') q2.
Proof.
  intros E1 E2 W1 W2 signal1 signal2 t1 t2 h1 h2 e1 e2 s1 s2 h1' h2' k1 k2 s1' s2' a q1 q2 I1 I2 G1 G2 H1 H2 D S R1 A1 R2 A2 C1 C2 Q1 Q2.
  destruct (process_digests _ _ _ _ _ _ _ _ _ _ I1 G1 H1 R1 A1) as (z1 & Z1 & _ & D1 & _).
  destruct (process_digests _ _ _ _ _ _ _ _ _ _ I2 G2 H2 R2 A2) as (z2 & Z2 & _ & D2 & _).
  rewrite S, Z2 in Z1. injection Z1 as ->. rewrite D in D1. unfold has_digests, heap_bytes in D1, D2. now rewrite (D1 a q1 C1 Q1), (D2 a q2 C2 Q2).
Qed.

Lemma process_null : forall E W signal t0 e s, exists s', sum_handle_process_input E W signal t0 None e s = Done ((-1)%Z, None, 0%nat) s' /\ only_error e s s'.
Proof. intros E W signal t0 e s. eexists. split; [reflexivity|]. split; [reflexivity|]. split; [reflexivity|]. split; [reflexivity|]. exists E_ARGUMENT_INVALID_VALUE. reflexivity. Qed.

Lemma nulls : forall E W split verbose d str len e s, exists s',
  (sum_handle_initialize E None e s = Done ((-1)%Z, None) s' /\ sum_handle_free W None e s = Done ((-1)%Z, None) s' /\
   sum_handle_signal_abort None e s = Done ((-1)%Z, None) s' /\ sum_handle_open_input W None e s = Done (-1)%Z s' /\
   sum_handle_close W None e s = Done (-1)%Z s' /\ sum_handle_set_digest_types E split None str e s = Done ((-1)%Z, None) s' /\
   sum_handle_set_process_buffer_size E verbose d None str len e s = Done ((-1)%Z, None) s' /\
   (forall stream, sum_handle_hash_values_fprint None stream e s = Done ((-1)%Z, []) s') /\
   (forall h, sum_handle_hash_values_fprint (Some h) false e s = Done ((-1)%Z, []) s')) /\ only_error e s s'.
Proof.
  intros E W split verbose d str len e s. exists (add_err e E_ARGUMENT_INVALID_VALUE s). split; [repeat split|].
  split; [reflexivity|]. split; [reflexivity|]. split; [reflexivity|]. exists E_ARGUMENT_INVALID_VALUE. reflexivity.
Qed.

Lemma initialize_used : forall E h e s, exists s', sum_handle_initialize E (Some (Some h)) e s = Done ((-1)%Z, Some h) s' /\ only_error e s s'.
Proof. intros E h e s. eexists. split; [reflexivity|]. split; [reflexivity|]. split; [reflexivity|]. split; [reflexivity|]. exists E_RUNTIME_VALUE_ALREADY_SET. reflexivity. Qed.

Lemma size_wraps : forall verbose h e s, let E := mk_env false true (fun _ => true) (fun _ _ => 0) (fun _ _ => 0) in
  sum_handle_set_process_buffer_size E verbose (Some 46) (Some h) (chars "18446744073709551617" ++ [0]) 20 e s =
    Done (1%Z, Some (set_buffer_size 1 h)) s /\
  sum_handle_set_process_buffer_size E verbose (Some 46) (Some h) (chars "16E" ++ [0]) 3 e s =
    Done (1%Z, Some (set_buffer_size 0 h)) s.
Proof. intros [|] h e s; split; reflexivity. Qed.
