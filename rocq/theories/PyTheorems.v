(* The theorems about Python programs. *)
From Coq Require Import Arith NArith ZArith List Lia Bool.
From Verif Require Import Words Spec Machine Vocab Context Hash Demo MachineFacts ReprFacts LibTheorems EvpFacts Py PyVocab PyFacts PyProgram.
Import ListNotations.
Open Scope N_scope.
Arguments Z.add : simpl never.

Lemma own_in : forall s a p fp x, own s a p fp x -> In p fp.
Proof.
  intros s a p fp x O. destruct x as [| |f m]; cbn in O; [contradiction| |].
  - destruct O as (-> & _). now left.
  - destruct O as (q & c & -> & _). now left.
Qed.
Lemma own_belongs : forall s a p fp x q, own s a p fp x -> In q fp -> q = p \/ get_obj s p = Some (OPtr (Some q)).
Proof.
  intros s a p fp x q O I. destruct x as [| |f m]; cbn in O; [contradiction| |].
  - destruct O as (-> & _). destruct I as [<-|[]]. now left.
  - destruct O as (q' & c & -> & _ & Hp & _). destruct I as [<-|[<-|[]]]; [now left|right]. exact (get_nth _ _ _ Hp eq_refl).
Qed.

Lemma python_program : forall E l S, good_state (lib S) -> errs (lib S) = [] -> exn S = None -> Forall (valid_op E (lib S)) l ->
  exists os vs S', run_program E l [] S = PDone (os, vs) S' /\ exn S' = None /\ errs (lib S') = [] /\ unchanged (lib S) (lib S') /\
  shown (lib S) 0 l os /\ map fst vs = flat_map made l /\ Forall (calculated (some_alloc_failed E (lib S) (lib S'))) os /\
  (forall i a v, nth_error vs i = Some (a, v) -> born (some_alloc_failed E (lib S) (lib S')) a i os).
Proof.
  intros E l S G Er X V.
  destruct (program_ok E l False True (lib S) S [] [] (pinv_start True _ G) Er X V (fun _ _ => I)) as (os & vs & S' & xs & R & Er' & X' & T & I' & Sh & Ty & Ca & _ & _ & Bo & _).
  exists os, vs, S'. split; [exact R|]. split; [exact X'|]. split; [exact Er'|]. split; [|split; [exact Sh|split; [exact Ty|split; [exact Ca|]]]].
  - intros p c Hc. rewrite (p_old _ _ _ _ _ _ I'); [exact Hc|]. apply nth_error_Some. congruence.
  - intros i a v Hi. apply (Bo i a v); [now destruct i|exact Hi|auto].
Qed.

Lemma python_memory : forall E l S os vs S', good_state (lib S) -> errs (lib S) = [] -> exn S = None -> Forall (valid_op E (lib S)) l ->
  run_program E l [] S = PDone (os, vs) S' ->
  (forall q c, (length (mem (lib S)) <= q)%nat -> nth_error (mem (lib S')) q = Some c -> live c = true ->
    belongs vs (lib S') q \/
    (some_alloc_failed E (lib S) (lib S') /\ content c = OPtr None) \/
    (~ no_init l /\ exists a x, content c = OCtx a x)) /\
  (forall i j a b p, nth_error vs i = Some (a, Some p) -> nth_error vs j = Some (b, Some p) -> i = j).
Proof.
  intros E l S os vs S' G Er X V R.
  assert (HC : forall i, In (PInit i) l -> ~ no_init l) by (intros i Hi N; exact (N i Hi)).
  destruct (program_ok E l False (~ no_init l) (lib S) S [] [] (pinv_start _ _ G) Er X V HC) as (os' & vs' & S'' & xs & R' & _ & _ & _ & I' & _).
  rewrite R in R'. injection R' as <- <- <-. split.
  - intros q c Q Hc Lv. destruct (p_left _ _ _ _ _ _ I' q c Q Hc Lv) as [(i & y & Hi & Hq)|[([F|F] & Y)|Y]]; [left|contradiction|right; left; now split|right; now right].
    assert (Li : (i < length vs)%nat) by (rewrite <- (p_len _ _ _ _ _ _ I'); apply nth_error_Some; congruence).
    destruct (nth_error vs i) as [[a v]|] eqn:Hv; [|apply nth_error_None in Hv; lia].
    destruct (p_vars _ _ _ _ _ _ I' i a v Hv) as (y' & Hy & W). assert (y' = y) by congruence. subst y'. destruct v as [p|]; cbn in W; [|subst y; destruct Hq].
    exists i, a, p. split; [exact Hv|]. exact (own_belongs _ _ _ _ _ _ (proj1 W) Hq).
  - intros i j a b p Hi Hj. destruct (p_vars _ _ _ _ _ _ I' i a _ Hi) as (y & Hy & O & _). destruct (p_vars _ _ _ _ _ _ I' j b _ Hj) as (z & Hz & O' & _).
    exact (p_disj _ _ _ _ _ _ I' i j y z p Hy Hz (own_in _ _ _ _ _ O) (own_in _ _ _ _ _ O')).
Qed.

Lemma python_released : forall E l S os vs S', good_state (lib S) -> errs (lib S) = [] -> exn S = None -> Forall (valid_op E (lib S)) l ->
  run_program E l [] S = PDone (os, vs) S' -> no_init l -> all_allocs_ok E (lib S) (lib S') -> Forall (fun v => snd v = None) vs ->
  no_leak (lib S) (lib S').
Proof.
  intros E l S os vs S' G Er X V R N A D q c Q Hc. destruct (live c) eqn:Lv; [|reflexivity]. exfalso.
  destruct (proj1 (python_memory E l S os vs S' G Er X V R) q c Q Hc Lv) as [(i & a & p & Hi & _)|[((i & Hi & F) & _)|(N' & _)]].
  - rewrite Forall_forall in D. apply nth_error_In in Hi. specialize (D _ Hi). discriminate.
  - rewrite (A i Hi) in F. discriminate.
  - now apply N'.
Qed.

Lemma python_references : forall E l S os vs S', good_state (lib S) -> errs (lib S) = [] -> exn S = None -> Forall (valid_op E (lib S)) l ->
  run_program E l [] S = PDone (os, vs) S' ->
  exists k, none_refs S' = (none_refs S + Z.of_nat k)%Z /\ (digests_seen os <= k <= calculations os)%nat /\
  (all_allocs_ok E (lib S) (lib S') -> k = calculations os).
Proof.
  intros E l S os vs S' G Er X V R.
  destruct (program_ok E l False True (lib S) S [] [] (pinv_start _ _ G) Er X V (fun _ _ => I)) as (os' & vs' & S'' & xs & R' & _ & _ & _ & _ & _ & _ & Ca & _ & _ & _ & k & NR & Hk).
  rewrite R in R'. injection R' as <- <- <-. exists k. split; [exact NR|]. split; [exact Hk|]. intros A.
  assert (H : digests_seen os = calculations os); [|lia]. clear NR Hk R.
  induction Ca as [|o os C1 C2 IH]; [reflexivity|]. rewrite seen_cons, calculations_cons, IH. f_equal.
  assert (NF : ~ saf E (lib S) (lib S')) by (intros (i & Hi & F); rewrite (A i Hi) in F; discriminate).
  destruct o as [| | | | |a [d|] r|a [[k0 d]|] r|]; try reflexivity; cbn in C1.
  - destruct C1 as [->|(F & _)]; [reflexivity|contradiction].
  - destruct C1 as [->| ->]; reflexivity.
  - destruct C1 as [->|(F & _)]; [reflexivity|contradiction].
  - destruct C1 as [->|[->| ->]]; reflexivity.
Qed.

(* ------------------------------------------------------- sessions *)

Lemma alloc_dec : forall E s s', some_alloc_failed E s s' \/ ~ some_alloc_failed E s s'.
Proof.
  intros E s s'. unfold some_alloc_failed. generalize (tries s) (tries s'). intros a b. induction b as [|b IH]; [right; intros (i & H & _); lia|].
  destruct IH as [(i & H & F)|N]; [left; exists i; split; [lia|exact F]|]. destruct (alloc_ok E b) eqn:Hb.
  - right. intros (i & H & F). apply N. exists i. split; [|exact F]. destruct (Nat.eq_dec i b) as [->|]; [congruence|lia].
  - destruct (le_lt_dec a b) as [L|L]; [left; exists b; split; [lia|exact Hb]|]. right. intros (i & H & _). lia.
Qed.

Definition piece_bytes (s : state) (x : ptr * N) : list N := bytes_at s (fst x) (snd x).

Lemma session_follows : forall (n : Prop) a s k pieces m os, ~ n ->
  shown s (Datatypes.S k) (map (fun x => PUpdate 0 (Some (ABytes (fst x) (snd x)))) pieces ++ [PFinalize 0]) os -> follows n a 0 (Has true m) os ->
  last os (OSkip 0) = OFinalize 0 (inr (lib_hash a (m ++ concat (map (piece_bytes s) pieces)))).
Proof.
  intros n a s k pieces. induction pieces as [|[p z] pieces IH]; intros m os Hn Sh F.
  - cbn [map app] in Sh. destruct os as [|o os]; [contradiction|]. cbn [shown] in Sh. destruct Sh as (S1 & S2). destruct os as [|o2 os]; [|contradiction].
    cbn [map concat last]. rewrite app_nil_r. destruct o; cbn in S1; try contradiction; subst i; inversion F; subst; try congruence; try contradiction; try reflexivity.
  - cbn [map app] in Sh. destruct os as [|o os]; [contradiction|]. cbn [shown] in Sh. destruct Sh as (S1 & S2).
    assert (Ne : os <> []). { intros ->. destruct pieces; cbn in S2; contradiction. }
    assert (L : last (o :: os) (OSkip 0) = last os (OSkip 0)) by (destruct os; [congruence|reflexivity]). rewrite L. cbn [map concat]. rewrite app_assoc.
    destruct o; cbn in S1; try contradiction; [destruct S1 as (-> & ->)|subst i]; inversion F; subst; try congruence; try contradiction.
    apply IH; auto.
Qed.

Lemma python_session : forall E a pieces S, good_state (lib S) -> errs (lib S) = [] -> exn S = None ->
  (forall p n, In (p, n) pieces -> accessible (lib S) p n /\ n <= ssize_max E) ->
  in_domain a (concat (map (fun x => bytes_at (lib S) (fst x) (snd x)) pieces)) ->
  exists os vs S', run_program E (PNew a :: map (fun x => PUpdate 0 (Some (ABytes (fst x) (snd x)))) pieces ++ [PFinalize 0]) [] S = PDone (os, vs) S' /\
  (last os (OSkip 0) = OFinalize 0 (inr (spec_hash a (concat (map (fun x => bytes_at (lib S) (fst x) (snd x)) pieces)))) \/
   some_alloc_failed E (lib S) (lib S')).
Proof.
  intros E a pieces S G Er X Ac D.
  destruct (python_program E (PNew a :: map (fun x => PUpdate 0 (Some (ABytes (fst x) (snd x)))) pieces ++ [PFinalize 0]) S G Er X) as (os & vs & S' & R & _ & _ & _ & Sh & Ty & _ & Bo).
  { constructor; [exact I|]. apply Forall_app. split; [|repeat constructor]. apply Forall_forall. intros o Ho. apply in_map_iff in Ho. destruct Ho as ([p n] & <- & Ho). exact (Ac p n Ho). }
  exists os, vs, S'. split; [exact R|].
  destruct (nth_error vs 0) as [[b v]|] eqn:Hv.
  2:{ exfalso. apply nth_error_None in Hv. assert (length vs = 0)%nat by lia. rewrite <- (map_length fst), Ty in H. cbn in H. discriminate. }
  assert (b = a). { pose proof (map_nth_error fst 0 vs Hv) as Q. rewrite Ty in Q. cbn in Q. congruence. } subst b.
  specialize (Bo 0%nat a v Hv). destruct os as [|o os]; [contradiction|]. cbn [shown] in Sh. destruct o; try contradiction. destruct Sh as (-> & Sh).
  destruct (alloc_dec E (lib S) (lib S')) as [A|A]; [right; exact A|left].
  assert (Fo : follows (saf E (lib S) (lib S')) a 0 (Has true []) os).
  { inversion Bo as [? ? Ne _ Q|? F Q|? ? N _ _ Q]; subst; [exfalso; eapply Ne; reflexivity|exact F|contradiction]. }
  assert (L : last (ONew 0 r :: os) (OSkip 0) = last os (OSkip 0)). { destruct os; [|reflexivity]. destruct pieces; cbn in Sh; contradiction. }
  rewrite L, (session_follows _ a (lib S) 0 pieces [] os A Sh Fo). cbn [app]. now rewrite <- lib_hash_spec.
Qed.

(* ------------------------------------------------------- single calls *)

Lemma gives_spec : forall E dig S r S', gives E [] dig 1 S r S' ->
  errs (lib S') = [] /\ unchanged (lib S) (lib S') /\
  ((exists q, r = RBytes q /\ exn S' = None /\ get_obj (lib S') q = Some (OBytes dig) /\ no_leak_but (lib S) (lib S') q) \/
   (r = RNull /\ exn S' = Some X_IOError /\ no_leak (lib S) (lib S') /\ some_alloc_failed E (lib S) (lib S'))).
Proof.
  intros E dig S r S' (K & Er & D). split; [exact Er|]. split.
  { intros q c Hc. rewrite (k_same _ _ _ K); [exact Hc|intros []|apply nth_error_Some; congruence]. }
  destruct D as [(q & -> & Hq & _ & NL & X & _)|(-> & NL & X & F & _)]; [left|right].
  - exists q. split; [reflexivity|]. split; [exact X|]. split; [exact (get_nth _ _ _ Hq eq_refl)|]. intros x c L Hx Ne. destruct (live c) eqn:Lv; [|reflexivity].
    destruct (NL x c L Hx Lv) as [H|[]]. congruence.
  - split; [reflexivity|]. split; [exact X|]. split; [|exact F]. intros x c L Hx. destruct (live c) eqn:Lv; [|reflexivity]. destruct (NL x c L Hx Lv).
Qed.

Lemma python_calculate : forall E a p n S, good_state (lib S) -> errs (lib S) = [] -> accessible (lib S) p n -> n <= ssize_max E ->
  in_domain a (bytes_at (lib S) p n) ->
  exists r S', py_calculate E a (Some (ABytes p n)) S = PDone r S' /\ errs (lib S') = [] /\ unchanged (lib S) (lib S') /\
  ((exists q, r = RBytes q /\ exn S' = None /\ get_obj (lib S') q = Some (OBytes (spec_hash a (bytes_at (lib S) p n))) /\ no_leak_but (lib S) (lib S') q) \/
   (r = RNull /\ exn S' = Some X_IOError /\ no_leak (lib S) (lib S') /\ some_alloc_failed E (lib S) (lib S'))).
Proof.
  intros E a p n S G Er A Hn D. destruct (calculate_gives E a p n S G Er A Hn) as (r & S' & R & Gi). exists r, S'. split; [exact R|].
  rewrite <- (lib_hash_spec a _ D). now apply gives_spec.
Qed.
Lemma python_hmac : forall E a kp kn p n S, good_state (lib S) -> errs (lib S) = [] -> accessible (lib S) kp kn -> kn <= ssize_max E ->
  accessible (lib S) p n -> n <= ssize_max E ->
  (a = SHA512 -> kn < 2 ^ 61 /\ 128 + n < 2 ^ 61) ->
  exists r S', py_calculate_hmac E a (Some (ABytes kp kn, ABytes p n)) S = PDone r S' /\ errs (lib S') = [] /\ unchanged (lib S) (lib S') /\
  ((exists q, r = RBytes q /\ exn S' = None /\ get_obj (lib S') q = Some (OBytes (spec_hmac a (bytes_at (lib S) kp kn) (bytes_at (lib S) p n))) /\
      no_leak_but (lib S) (lib S') q) \/
   (r = RNull /\ exn S' = Some X_IOError /\ no_leak (lib S) (lib S') /\ some_alloc_failed E (lib S) (lib S'))).
Proof.
  intros E a kp kn p n S G Er Ak Hk A Hn D. destruct (hmac_gives E a kp kn p n S G Er Ak Hk A Hn) as (r & S' & R & Gi). exists r, S'. split; [exact R|].
  rewrite <- lib_hmac_spec; [now apply gives_spec| |]; intros Ha; rewrite bytes_at_length, N2Nat.id by assumption; now apply D.
Qed.

(* ------------------------------------------------------- refutations *)

Lemma python_reinit : ~ (forall E l S os vs S', good_state (lib S) -> errs (lib S) = [] -> exn S = None ->
  Forall (valid_op E (lib S)) l -> run_program E l [] S = PDone (os, vs) S' ->
  all_allocs_ok E (lib S) (lib S') -> Forall (fun v => snd v = None) vs -> no_leak (lib S) (lib S')).
Proof.
  intros H. set (S0 := mk_py demo_state 0 None).
  assert (Q : exists os vs S' c, run_program (demo_env true true) [PNew MD5; PInit 0; PDelete 0] [] S0 = PDone (os, vs) S' /\
    map snd vs = [None] /\ nth_error (mem (lib S')) 8 = Some c /\ live c = true).
  { do 4 eexists. split; [vm_compute; reflexivity|]. repeat split. }
  destruct Q as (os & vs & S' & c & R & V & Hc & Lv).
  assert (NL : no_leak (lib S0) (lib S')).
  { refine (H _ _ S0 _ _ _ demo_good eq_refl eq_refl _ R _ _); [repeat constructor|intros i _; reflexivity|].
    clear R. destruct vs as [|v [|w vs]]; try discriminate V. constructor; [now injection V as ->|constructor]. }
  rewrite (NL 8%nat c) in Lv; [discriminate|cbn; lia|exact Hc].
Qed.
Lemma python_failed_new : exists E S os vs S', good_state (lib S) /\ errs (lib S) = [] /\ exn S = None /\
  run_program E [PNew MD5] [] S = PDone (os, vs) S' /\ vs = [(MD5, None)] /\ os = [ONew 0 (Some X_ValueError)] /\
  ~ no_leak (lib S) (lib S').
Proof.
  exists (demo_fail true true 1), (mk_py demo_state 0 None). do 3 eexists. split; [exact demo_good|]. split; [reflexivity|]. split; [reflexivity|].
  split; [vm_compute; reflexivity|]. split; [reflexivity|]. split; [reflexivity|]. intros H.
  assert (L : live (mk_cell true Heap (OPtr None)) = false) by (apply (H 7%nat); [cbn; lia|reflexivity]). discriminate.
Qed.
Lemma python_keeps_none : ~ (forall E l S os vs S', good_state (lib S) -> errs (lib S) = [] -> exn S = None ->
  Forall (valid_op E (lib S)) l -> run_program E l [] S = PDone (os, vs) S' -> none_refs S' = none_refs S).
Proof.
  intros H. set (S0 := mk_py demo_state 0 None). set (l := [PCalculate MD5 (Some (ABytes (0%nat, 0) 3))]).
  assert (V : Forall (valid_op (demo_env true true) (lib S0)) l).
  { constructor; [|constructor]. split; [exists [97; 98; 99]; split; [reflexivity|vm_compute; discriminate]|vm_compute; discriminate]. }
  destruct (python_program (demo_env true true) l S0 demo_good eq_refl eq_refl V) as (os & vs & S' & R & _ & _ & _ & Sh & _).
  destruct (python_references (demo_env true true) l S0 os vs S' demo_good eq_refl eq_refl V R) as (k & Hk & _ & K).
  rewrite (H _ _ S0 _ _ _ demo_good eq_refl eq_refl V R), K in Hk by (intros i _; reflexivity).
  assert (calculations os = 1%nat); [|rewrite H0 in Hk; cbn in Hk; lia].
  destruct os as [|o [|o2 os]]; cbn in Sh; [contradiction| |now destruct Sh]. destruct Sh as (Sh & _). destruct o; try contradiction. destruct Sh as (-> & ->). reflexivity.
Qed.
