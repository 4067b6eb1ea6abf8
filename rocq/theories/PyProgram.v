(* Every Python program over the bindings keeps an invariant. *)
From Coq Require Import Arith NArith ZArith List Lia Bool.
From Verif Require Import Words Spec Tables Transform Machine Vocab Context Hash MachineFacts HistoryFacts LibProofs EvpFacts Py PyVocab PyFacts.
Import ListNotations.
Open Scope N_scope.
Arguments Z.add : simpl never.
Arguments alg_of : simpl never.

Section Program.
  Variable E : env.
  Notation saf := (saf E).

  Definition leftover (P C : Prop) (c : cell) : Prop := (P /\ content c = OPtr None) \/ (C /\ exists a x, content c = OCtx a x).
  Definition var_of (s0 s : state) (a : algid) (v : option nat) (y : life * list nat) : Prop :=
    match v with
    | None => y = (Gone, [])
    | Some p => own s a p (snd y) (fst y) /\ forall q, In q (snd y) -> (length (mem s0) <= q)%nat
    end.
  Record pinv (P C : Prop) (s0 s : state) (vs : pyvars) (xs : list (life * list nat)) : Prop := {
    p_good : good_state s;
    p_old : forall q, (q < length (mem s0))%nat -> nth_error (mem s) q = nth_error (mem s0) q;
    p_ge : (length (mem s0) <= length (mem s))%nat;
    p_len : length xs = length vs;
    p_vars : forall i a v, nth_error vs i = Some (a, v) -> exists y, nth_error xs i = Some y /\ var_of s0 s a v y;
    p_disj : forall i j y z q, nth_error xs i = Some y -> nth_error xs j = Some z -> In q (snd y) -> In q (snd z) -> i = j;
    p_left : forall q c, (length (mem s0) <= q)%nat -> nth_error (mem s) q = Some c -> live c = true ->
             (exists i y, nth_error xs i = Some y /\ In q (snd y)) \/ leftover P C c;
    p_bare : forall i y, nth_error xs i = Some y -> fst y = Bare -> P;
  }.

  Lemma leftover_mono : forall (P P' C : Prop) c, (P -> P') -> leftover P C c -> leftover P' C c.
  Proof. intros P P' C c H [(A & B)|B]; [left; auto|now right]. Qed.

  Lemma in_lt : forall P C s0 s vs xs i y q, pinv P C s0 s vs xs -> nth_error xs i = Some y -> In q (snd y) -> (length (mem s0) <= q < length (mem s))%nat.
  Proof.
    intros P C s0 s vs xs i y q H Hi Hq.
    assert (L : (i < length vs)%nat) by (rewrite <- (p_len _ _ _ _ _ _ H); apply nth_error_Some; congruence).
    destruct (nth_error vs i) as [[a v]|] eqn:Hv; [|apply nth_error_None in Hv; lia].
    destruct (p_vars _ _ _ _ _ _ H i a v Hv) as (y' & Hy & V). assert (y' = y) by congruence. subst y'. destruct v as [p|]; cbn in V.
    - destruct V as (O & F). split; [now apply F|]. eapply own_lt; eassumption.
    - subst y. destruct Hq.
  Qed.

  Lemma pinv_change : forall (P P' C : Prop) s0 s s' vs xs i a v v' y x' fp', pinv P C s0 s vs xs -> (P -> P') ->
    nth_error vs i = Some (a, v) -> nth_error xs i = Some y -> keeps (snd y) s s' ->
    match v' with Some p => own s' a p fp' x' | None => x' = Gone /\ fp' = [] end ->
    (forall q, In q fp' -> In q (snd y) \/ (length (mem s) <= q)%nat) -> newlive s s' fp' ->
    (forall q c, In q (snd y) -> ~ In q fp' -> nth_error (mem s') q = Some c -> live c = true -> leftover P' C c) -> (x' = Bare -> P') ->
    pinv P' C s0 s' (replace vs i (a, v')) (replace xs i (x', fp')).
  Proof.
    intros P P' C s0 s s' vs xs i a v v' y x' fp' H HP Hv Hx K V F NL D HB.
    assert (Li : (i < length xs)%nat) by (apply nth_error_Some; congruence). pose proof (p_len _ _ _ _ _ _ H) as Ll. pose proof (p_ge _ _ _ _ _ _ H) as Lg.
    assert (F' : forall q, In q fp' -> (length (mem s0) <= q)%nat).
    { intros q Q. destruct (F q Q) as [Y|Y]; [now apply (in_lt _ _ _ _ _ _ i y q H)|lia]. }
    constructor.
    - exact (k_good _ _ _ K).
    - intros q Q. rewrite (k_same _ _ _ K); [now apply (p_old _ _ _ _ _ _ H)| |lia]. intros Y. pose proof (in_lt _ _ _ _ _ _ i y q H Hx Y). lia.
    - pose proof (k_len _ _ _ K). lia.
    - now rewrite !replace_length.
    - intros j b w Hj. apply replace_nth in Hj. destruct Hj as [(<- & Hj)|(Hne & Hj)].
      + injection Hj as -> ->. exists (x', fp'). split; [now apply replace_same|]. destruct v' as [p|]; cbn; [now split|]. destruct V as (-> & ->). reflexivity.
      + destruct (p_vars _ _ _ _ _ _ H j b w Hj) as (z & Hz & W). exists z. rewrite replace_other by exact Hne. split; [exact Hz|].
        destruct w as [p|]; cbn in *; [|exact W]. destruct W as (O & G). split; [|exact G]. apply (own_same s); [exact O|].
        intros q Q. apply (k_same _ _ _ K); [|eapply own_lt; eassumption]. intros Y. apply Hne. exact (p_disj _ _ _ _ _ _ H i j y z q Hx Hz Y Q).
    - intros j k z w q Hj Hk Q Q'. apply replace_nth in Hj. apply replace_nth in Hk.
      assert (X : forall j z, i <> j -> nth_error xs j = Some z -> In q (snd z) -> In q fp' -> False).
      { intros j' z' N1 N2 N3 N4. destruct (F q N4) as [Y|Y]; [apply N1; exact (p_disj _ _ _ _ _ _ H i j' y z' q Hx N2 Y N3)|].
        pose proof (in_lt _ _ _ _ _ _ j' z' q H N2 N3). lia. }
      destruct Hj as [(<- & ->)|(N1 & Hj)], Hk as [(<- & ->)|(N2 & Hk)]; cbn [snd] in *.
      + reflexivity.
      + exfalso. eauto.
      + exfalso. eauto.
      + exact (p_disj _ _ _ _ _ _ H j k z w q Hj Hk Q Q').
    - intros q c Q Hc Lv. destruct (in_dec Nat.eq_dec q fp') as [Y|Y].
      + left. exists i, (x', fp'). split; [now apply replace_same|exact Y].
      + destruct (Nat.lt_ge_cases q (length (mem s))) as [Lq|Lq]; [|exfalso; apply Y; now apply (NL q c)].
        destruct (in_dec Nat.eq_dec q (snd y)) as [Z|Z]; [right; now apply (D q c)|].
        rewrite (k_same _ _ _ K) in Hc by assumption. destruct (p_left _ _ _ _ _ _ H q c Q Hc Lv) as [(j & z & Hj & Hq)|Lo].
        * left. exists j, z. split; [|exact Hq]. rewrite replace_other; [exact Hj|]. intros <-. apply Z. congruence.
        * right. exact (leftover_mono _ _ _ _ HP Lo).
    - intros j z Hj Z. apply replace_nth in Hj. destruct Hj as [(<- & ->)|(_ & Hj)]; [now apply HB|]. apply HP. exact (p_bare _ _ _ _ _ _ H j z Hj Z).
  Qed.

  Lemma pinv_same : forall (P P' C : Prop) s0 s s' vs xs, pinv P C s0 s vs xs -> (P -> P') -> keeps [] s s' -> newlive s s' [] -> pinv P' C s0 s' vs xs.
  Proof.
    intros P P' C s0 s s' vs xs H HP K NL. constructor.
    - exact (k_good _ _ _ K).
    - intros q Q. rewrite (k_same _ _ _ K); [now apply (p_old _ _ _ _ _ _ H)|intros []|pose proof (p_ge _ _ _ _ _ _ H); lia].
    - pose proof (k_len _ _ _ K). pose proof (p_ge _ _ _ _ _ _ H). lia.
    - exact (p_len _ _ _ _ _ _ H).
    - intros i a v Hi. destruct (p_vars _ _ _ _ _ _ H i a v Hi) as (y & Hy & V). exists y. split; [exact Hy|]. destruct v as [p|]; cbn in *; [|exact V].
      destruct V as (O & F). split; [|exact F]. apply (own_same s); [exact O|]. intros q Q. apply (k_same _ _ _ K); [intros []|eapply own_lt; eassumption].
    - exact (p_disj _ _ _ _ _ _ H).
    - intros q c Q Hc Lv. destruct (Nat.lt_ge_cases q (length (mem s))) as [Lq|Lq]; [|destruct (NL q c Lq Hc Lv)].
      rewrite (k_same _ _ _ K) in Hc by (auto; intros []). destruct (p_left _ _ _ _ _ _ H q c Q Hc Lv) as [Y|Y]; [now left|right]. exact (leftover_mono _ _ _ _ HP Y).
    - intros i y Hi Y. apply HP. exact (p_bare _ _ _ _ _ _ H i y Hi Y).
  Qed.

  Lemma pinv_add : forall (P P' C : Prop) s0 s s' vs xs a v x fp, pinv P C s0 s vs xs -> (P -> P') -> keeps [] s s' ->
    match v with Some p => own s' a p fp x | None => x = Gone /\ fp = [] end ->
    (forall q, In q fp -> (length (mem s) <= q)%nat) ->
    (forall q c, (length (mem s) <= q)%nat -> nth_error (mem s') q = Some c -> live c = true -> In q fp \/ leftover P' C c) -> x <> Bare ->
    pinv P' C s0 s' (vs ++ [(a, v)]) (xs ++ [(x, fp)]).
  Proof.
    intros P P' C s0 s s' vs xs a v x fp H HP K V F NL HB. pose proof (p_len _ _ _ _ _ _ H) as Ll. pose proof (p_ge _ _ _ _ _ _ H) as Lg.
    assert (X : forall A (l : list A) z i y, nth_error (l ++ [z]) i = Some y -> (i < length l)%nat /\ nth_error l i = Some y \/ i = length l /\ y = z).
    { intros A l z i y Hy. destruct (Nat.lt_ge_cases i (length l)) as [Y|Y]; [left; rewrite nth_error_app1 in Hy by exact Y; auto|].
      right. rewrite nth_error_app2 in Hy by exact Y. destruct (i - length l)%nat as [|[|k]] eqn:Q; cbn in Hy; try discriminate. split; [lia|congruence]. }
    constructor.
    - exact (k_good _ _ _ K).
    - intros q Q. rewrite (k_same _ _ _ K); [now apply (p_old _ _ _ _ _ _ H)|intros []|lia].
    - pose proof (k_len _ _ _ K). lia.
    - rewrite !app_length. cbn. lia.
    - intros i b w Hi. apply X in Hi. destruct Hi as [(Li & Hi)|(-> & Hi)].
      + destruct (p_vars _ _ _ _ _ _ H i b w Hi) as (y & Hy & W). exists y. split; [rewrite nth_error_app1 by lia; exact Hy|]. destruct w as [p|]; cbn in *; [|exact W].
        destruct W as (O & G). split; [|exact G]. apply (own_same s); [exact O|]. intros q Q. apply (k_same _ _ _ K); [intros []|eapply own_lt; eassumption].
      + injection Hi as -> ->. exists (x, fp). split; [rewrite <- Ll, nth_error_app2, Nat.sub_diag by lia; reflexivity|]. destruct v as [p|]; cbn.
        * split; [exact V|]. intros q Q. specialize (F q Q). lia.
        * destruct V as (-> & ->). reflexivity.
    - intros i j y z q Hi Hj Q Q'. apply X in Hi. apply X in Hj. destruct Hi as [(Li & Hi)|(-> & ->)], Hj as [(Lj & Hj)|(-> & ->)]; cbn [snd] in *.
      + exact (p_disj _ _ _ _ _ _ H i j y z q Hi Hj Q Q').
      + pose proof (in_lt _ _ _ _ _ _ i y q H Hi Q). specialize (F q Q'). lia.
      + pose proof (in_lt _ _ _ _ _ _ j z q H Hj Q'). specialize (F q Q). lia.
      + reflexivity.
    - intros q c Q Hc Lv. destruct (Nat.lt_ge_cases q (length (mem s))) as [Lq|Lq].
      + rewrite (k_same _ _ _ K) in Hc by (auto; intros []). destruct (p_left _ _ _ _ _ _ H q c Q Hc Lv) as [(i & y & Hi & Hq)|Y].
        * left. exists i, y. split; [|exact Hq]. rewrite nth_error_app1; [exact Hi|]. apply nth_error_Some. congruence.
        * right. exact (leftover_mono _ _ _ _ HP Y).
      + destruct (NL q c Lq Hc Lv) as [Y|Y]; [left|now right]. exists (length xs), (x, fp). split; [rewrite nth_error_app2, Nat.sub_diag by lia; reflexivity|exact Y].
    - intros i y Hi Y. apply X in Hi. destruct Hi as [(_ & Hi)|(_ & ->)]; [apply HP; exact (p_bare _ _ _ _ _ _ H i y Hi Y)|contradiction].
  Qed.

  (* looking at a result *)
  Lemma look_gives : forall W dig k S r S', gives E W dig k S r S' -> (forall q, In q W -> (q < length (mem (lib S)))%nat) ->
    exists d S'', look r S' = PDone d S'' /\ keeps W (lib S) (lib S'') /\ newlive (lib S) (lib S'') [] /\ errs (lib S'') = [] /\ exn S'' = None /\
    (forall q, (q < length (mem (lib S)))%nat -> nth_error (mem (lib S'')) q = nth_error (mem (lib S')) q) /\
    ((d = inr dig /\ none_refs S'' = (none_refs S + k)%Z) \/
     (d = inl X_IOError /\ saf (lib S) (lib S'') /\ (none_refs S'' = none_refs S \/ none_refs S'' = (none_refs S + k)%Z))).
  Proof.
    intros W dig k S r S' (K & Er & [(p & -> & Hp & Lp & NL & X & NR)|(-> & NL & X & F & NR)]) HW.
    - set (s1 := lib S') in *. assert (K2 : keeps [p] s1 (kill p s1)) by (apply keeps_kill; exact (k_good _ _ _ K)).
      exists (inr dig), (mk_py (kill p s1) (none_refs S') None). cbn [lib none_refs exn]. split; [|split; [|split; [|split; [|split; [reflexivity|split]]]]].
      + unfold look. erewrite pbind_done by reflexivity. rewrite X. cbv iota beta.
        erewrite pbind_done by (unfold peek_bytes; cbn [lib]; fold s1; rewrite (get_nth _ _ _ Hp eq_refl); cbn [content]; reflexivity).
        erewrite pbind_done by (apply inlib_done; cbn [lib]; eapply mfree_ok; exact Hp). reflexivity.
      + apply (keeps_trans W [p] _ s1 _ K K2). intros q [<-|[]] Y. lia.
      + apply (nl_trans [p] _ s1 _ [p] [] NL K2); [apply newlive_kill|intros q Y Z; contradiction|].
        intros q c [<-|[]] _ Y Lv. rewrite (kill_nth_same _ _ _ Hp) in Y. injection Y as <-. discriminate.
      + rewrite kill_errs. exact Er.
      + intros q Q. apply kill_nth_other. lia.
      + left. now split.
    - exists (inl X_IOError), (mk_py (lib S') (none_refs S') None). cbn [lib none_refs exn]. split; [|split; [exact K|split; [exact NL|split; [exact Er|split; [reflexivity|split; [reflexivity|]]]]]].
      + unfold look. erewrite pbind_done by reflexivity. rewrite X. reflexivity.
      + right. now split.
  Qed.

  (* one statement *)
  Definition sim (n : Prop) (vs : pyvars) (xs : list (life * list nat)) (vs' : pyvars) (xs' : list (life * list nat)) (o : pyobs) : Prop :=
    (forall i a v, nth_error vs i = Some (a, v) -> exists v', nth_error vs' i = Some (a, v')) /\
    (forall i a v y y', nth_error vs i = Some (a, v) -> nth_error xs i = Some y -> nth_error xs' i = Some y' ->
       forall l (n' : Prop), (n -> n') -> follows n' a i (fst y') l -> follows n' a i (fst y) (o :: l)) /\
    (forall i a v y', nth_error vs i = None -> nth_error vs' i = Some (a, v) -> nth_error xs' i = Some y' ->
       forall l (n' : Prop), (n -> n') -> follows n' a i (fst y') l -> born n' a i (o :: l)) /\
    (forall i r, nth_error vs' i = None -> o <> ONew i r).

  (* the observation is about variable i only *)
  Definition about (i : nat) (o : pyobs) : Prop :=
    match o with OInit j _ | OUpdate j _ _ | OFinalize j _ | ODelete j _ | OSkip j => j = i | ONew _ _ => False | _ => False end.
  Lemma sim_one : forall (n : Prop) vs xs i a v v' y x' fp' o, nth_error vs i = Some (a, v) -> nth_error xs i = Some y -> about i o ->
    (forall l (n' : Prop), (n -> n') -> follows n' a i x' l -> follows n' a i (fst y) (o :: l)) ->
    sim n vs xs (replace vs i (a, v')) (replace xs i (x', fp')) o.
  Proof.
    intros n vs xs i a v v' y x' fp' o Hv Hx Ho F. split; [|split; [|split]].
    - intros j b w Hj. destruct (Nat.eq_dec i j) as [<-|D].
      + assert (b = a) by congruence. subst b. exists v'. apply replace_same. apply nth_error_Some. congruence.
      + exists w. now rewrite replace_other.
    - intros j b w z z' Hj Hz Hz' l n' Hn Hf. apply replace_nth in Hz'. destruct Hz' as [(<- & ->)|(D & Hz')].
      + assert (b = a) by congruence. assert (z = y) by congruence. subst b z. now apply F.
      + assert (z' = z) by congruence. subst z'. apply F_other; [|exact Hf]. destruct o; cbn in Ho; try contradiction; subst; intros ->; now apply D.
    - intros j b w z Hj Hj'. exfalso. assert (j < length (replace vs i (a, v')))%nat by (apply nth_error_Some; congruence).
      rewrite replace_length in *. apply nth_error_None in Hj. lia.
    - intros j r _ ->. exact Ho.
  Qed.
  Lemma sim_none : forall n vs xs o, match o with OCalculate _ _ _ | OHmac _ _ _ => True | OSkip i => match nth_error vs i with Some (_, Some _) => False | _ => True end | _ => False end ->
    (forall i a y, nth_error vs i = Some (a, None) -> nth_error xs i = Some y -> fst y = Gone) ->
    sim n vs xs vs xs o.
  Proof.
    intros n vs xs o Ho G. split; [|split; [|split]].
    - eauto.
    - intros i a v y y' Hi Hy Hy' l n' Hn Hf. assert (y' = y) by congruence. subst y'. destruct o; try contradiction; try (apply F_other; [exact I|exact Hf]).
      destruct (Nat.eq_dec i0 i) as [->|D]; [|now apply F_other]. rewrite Hi in Ho. destruct v as [p|]; [contradiction|]. rewrite (G _ _ _ Hi Hy) in *. now apply F_skip.
    - intros i a v y' H1 H2. congruence.
    - intros i r _ ->. exact Ho.
  Qed.

  Definition op_post (P C : Prop) (s0 : state) (o : pyop) (vs : pyvars) (xs : list (life * list nat)) (S : pystate) : Prop :=
    exists ob vs' S' xs', run_op E o vs S = PDone (ob, vs') S' /\ errs (lib S') = [] /\ exn S' = None /\ (tries (lib S) <= tries (lib S'))%nat /\
    pinv (P \/ saf (lib S) (lib S')) C s0 (lib S') vs' xs' /\ shows s0 o ob /\ calculated (saf (lib S) (lib S')) ob /\
    sim (saf (lib S) (lib S')) vs xs vs' xs' ob /\ map fst vs' = map fst vs ++ made o /\ (forall a, o = PNew a -> exists e, ob = ONew (length vs) e) /\
    exists k, none_refs S' = (none_refs S + Z.of_nat k)%Z /\ (digests_seen [ob] <= k <= calculations [ob])%nat.

  Lemma old_access : forall P C s0 s vs xs p n, pinv P C s0 s vs xs -> accessible s0 p n -> accessible s p n /\ bytes_at s p n = bytes_at s0 p n.
  Proof.
    intros P C s0 s vs xs p n H A. pose proof (accessible_lt _ _ _ A) as L. pose proof (p_old _ _ _ _ _ _ H _ L) as Q.
    split; [now apply (accessible_same s0)|now apply bytes_same].
  Qed.
  Lemma given_ok : forall P C s0 s vs xs x, pinv P C s0 s vs xs -> valid_arg E s0 x -> valid_arg E s x /\ given s x = given s0 x.
  Proof.
    intros P C s0 s vs xs [p n| |] H V; cbn in *; try (now split). destruct V as (A & L). destruct (old_access _ _ _ _ _ _ p n H A) as (A' & B). rewrite B. now split.
  Qed.
  Lemma gone : forall P C s0 s vs xs i a y, pinv P C s0 s vs xs -> nth_error vs i = Some (a, None) -> nth_error xs i = Some y -> fst y = Gone.
  Proof. intros P C s0 s vs xs i a y H Hi Hy. destruct (p_vars _ _ _ _ _ _ H _ _ _ Hi) as (y' & Hy' & V). cbn in V. assert (y = y') by congruence. now subst. Qed.

  Lemma look_null : forall S e, exn S = Some e -> look RNull S = PDone (inl e) (mk_py (lib S) (none_refs S) None).
  Proof. intros S e X. unfold look. erewrite pbind_done by reflexivity. now rewrite X. Qed.
  Lemma look_none : forall S, exn S = None -> look RNone S = PDone (inr []) (mk_py (lib S) (none_refs S + -1) None).
  Proof. intros S X. unfold look. erewrite pbind_done by reflexivity. rewrite X. reflexivity. Qed.

  Ltac types := cbn [made]; rewrite app_nil_r; first [reflexivity|eapply replace_map; [eassumption|reflexivity]].
  Lemma op_new : forall P C s0 S vs xs a, pinv P C s0 (lib S) vs xs -> errs (lib S) = [] -> exn S = None -> op_post P C s0 (PNew a) vs xs S.
  Proof.
    intros P C s0 S vs xs a H Er X. pose proof (p_len _ _ _ _ _ _ H) as Ll.
    destruct (create_ok E a S (p_good _ _ _ _ _ _ H) Er X) as (r & S' & R & K & Er' & NR & D).
    assert (Run : run_op E (PNew a) vs S = PDone (ONew (length vs) (exn S'), vs ++ [(a, r)]) (mk_py (lib S') (none_refs S') None)).
    { cbn [run_op]. erewrite pbind_done by exact R. erewrite pbind_done by reflexivity. reflexivity. }
    assert (Sim : forall n x fp e, match e with None => x = Has true [] | Some e => x = Gone /\ n /\ (e = X_MemoryError \/ e = X_ValueError) end ->
       sim n vs xs (vs ++ [(a, r)]) (xs ++ [(x, fp)]) (ONew (length vs) e)).
    { intros n x fp e He. split; [|split; [|split]].
      - intros i b v Hi. exists v. rewrite nth_error_app1; [exact Hi|]. apply nth_error_Some. congruence.
      - intros i b v y y' Hi Hy Hy' l n' Hn Hf. assert (Li : (i < length vs)%nat) by (apply nth_error_Some; congruence). rewrite nth_error_app1 in Hy' by lia.
        assert (y' = y) by congruence. subst. apply F_other; [lia|exact Hf].
      - intros i b v y' Hi Hi' Hy' l n' Hn Hf. apply nth_error_None in Hi. assert (Li : (i < length (vs ++ [(a, r)]))%nat) by (apply nth_error_Some; congruence).
        rewrite app_length in Li. cbn in Li. assert (i = length vs) by lia. subst i. rewrite nth_error_app2, Nat.sub_diag in Hi' by lia. cbn in Hi'. injection Hi' as <- <-.
        rewrite <- Ll, nth_error_app2, Nat.sub_diag in Hy' by lia. cbn in Hy'. injection Hy' as <-. cbn [fst] in Hf. destruct e as [e|].
        + destruct He as (-> & He1 & He2). apply B_fails; auto.
        + subst x. now apply B_here.
      - intros i e' Hi Y. injection Y as <- <-. apply nth_error_None in Hi. rewrite app_length in Hi. cbn in Hi. lia. }
    destruct D as [(p & q & -> & X' & Lp & Lq & O & NL)|[(-> & X' & NL & Al & F)|(p & -> & X' & NL & Hp & F)]]; rewrite X' in Run.
    - do 3 eexists. exists (xs ++ [(Has true [], [p; q])]). split; [exact Run|]. cbn [lib none_refs exn]. split; [exact Er'|]. split; [reflexivity|].
      split; [exact (k_tries _ _ _ K)|]. split; [|split; [exact I|split; [exact I|split; [now apply Sim|split; [apply map_app|split; [eauto|exists 0%nat; cbn; lia]]]]]].
      apply (pinv_add P _ C s0 (lib S)); [exact H|auto|exact K|exact O|intros x [<-|[<-|[]]]; assumption| |discriminate]. intros x c Y Z Lv. left. exact (NL x c Y Z Lv).
    - do 3 eexists. exists (xs ++ [(Gone, [])]). split; [exact Run|]. cbn [lib none_refs exn]. split; [exact Er'|]. split; [reflexivity|].
      split; [exact (k_tries _ _ _ K)|]. split; [|split; [exact I|split; [exact I|split; [apply Sim; auto|split; [apply map_app|split; [eauto|exists 0%nat; cbn; lia]]]]]].
      apply (pinv_add P _ C s0 (lib S)); [exact H|auto|exact K|now split|intros x []| |discriminate]. intros x c Y Z Lv. destruct (NL x c Y Z Lv).
    - do 3 eexists. exists (xs ++ [(Gone, [])]). split; [exact Run|]. cbn [lib none_refs exn]. split; [exact Er'|]. split; [reflexivity|].
      split; [exact (k_tries _ _ _ K)|]. split; [|split; [exact I|split; [exact I|split; [apply Sim; auto|split; [apply map_app|split; [eauto|exists 0%nat; cbn; lia]]]]]].
      apply (pinv_add P _ C s0 (lib S)); [exact H|auto|exact K|now split|intros x []| |discriminate]. intros x c Y Z Lv. right. left. destruct (NL x c Y Z Lv) as [<-|[]].
      rewrite Hp in Z. injection Z as <-. split; [now right|reflexivity].
  Qed.

  Lemma op_skip : forall P C s0 S vs xs o i, pinv P C s0 (lib S) vs xs -> errs (lib S) = [] -> exn S = None -> self_of vs i = None ->
    run_op E o vs S = PDone (OSkip i, vs) S -> shows s0 o (OSkip i) -> op_post P C s0 o vs xs S.
  Proof.
    intros P C s0 S vs xs o i H Er X Q R Sh. exists (OSkip i), vs, S, xs. split; [exact R|]. split; [exact Er|]. split; [exact X|]. split; [reflexivity|].
    split; [apply (pinv_same P _ C s0 (lib S)); [exact H|auto|apply keeps_refl; exact (p_good _ _ _ _ _ _ H)|apply newlive_refl]|]. split; [exact Sh|]. split; [exact I|].
    assert (Mo : made o = [] /\ forall a, o <> PNew a) by (destruct o; cbn in Sh; try contradiction; (split; [reflexivity|discriminate])).
    destruct Mo as (Mo & No). split; [apply sim_none|split; [now rewrite Mo, app_nil_r|split; [intros a ->; now elim (No a)|exists 0%nat; cbn; lia]]].
    - unfold self_of in Q. destruct (nth_error vs i) as [[a [p|]]|]; [discriminate|exact I|exact I].
    - intros. eapply gone; eassumption.
  Qed.
  Lemma self_some : forall P C s0 s vs xs i a p, pinv P C s0 s vs xs -> self_of vs i = Some (a, p) ->
    nth_error vs i = Some (a, Some p) /\ exists x fp, nth_error xs i = Some (x, fp) /\ own s a p fp x /\ (forall q, In q fp -> (length (mem s0) <= q < length (mem s))%nat).
  Proof.
    intros P C s0 s vs xs i a p H Q. unfold self_of in Q. destruct (nth_error vs i) as [[b [p'|]]|] eqn:Hi; try discriminate. injection Q as -> ->.
    split; [reflexivity|]. destruct (p_vars _ _ _ _ _ _ H _ _ _ Hi) as ([x fp] & Hx & O & F). exists x, fp. split; [exact Hx|]. split; [exact O|].
    intros q Q. exact (in_lt _ _ _ _ _ _ i (x, fp) q H Hx Q).
  Qed.

  Lemma op_init : forall P (C : Prop) s0 S vs xs i, pinv P C s0 (lib S) vs xs -> errs (lib S) = [] -> exn S = None -> C -> op_post P C s0 (PInit i) vs xs S.
  Proof.
    intros P C s0 S vs xs i H Er X HC. destruct (self_of vs i) as [[a p]|] eqn:Q; [|apply (op_skip _ _ _ _ _ _ _ i H Er X Q); [cbn; rewrite Q; reflexivity|reflexivity]].
    destruct (self_some _ _ _ _ _ _ _ _ _ H Q) as (Hi & x & fp & Hx & O & Lf).
    assert (exists v, nth_error (mem (lib S)) p = Some (mk_cell true Heap (OPtr v)) /\ In p fp) as (v & Hp & Ip).
    { destruct x as [| |f m]; cbn in O; [contradiction| |].
      - destruct O as (-> & O). exists None. split; [exact O|now left].
      - destruct O as (q & c & -> & _ & O & _). exists (Some q). split; [exact O|now left]. }
    destruct (init_ok E a p v S (p_good _ _ _ _ _ _ H) Er Hp) as (r & S' & R & K & Er' & NR & D).
    assert (Run : run_op E (PInit i) vs S = PDone (OInit i (exn S'), vs) (mk_py (lib S') (none_refs S') None)).
    { cbn [run_op]. rewrite Q. erewrite pbind_done by exact R. erewrite pbind_done by reflexivity. reflexivity. }
    assert (NG : x <> Gone) by (intros ->; exact O).
    assert (K' : keeps fp (lib S) (lib S')).
    { destruct K as [A1 A2 A3 A4]. constructor; auto. intros q Y Z. apply A2; [|exact Z]. intros [<-|[]]. now apply Y. }
    assert (Left : forall q c, In q fp -> q <> p -> nth_error (mem (lib S')) q = Some c -> live c = true -> leftover (P \/ saf (lib S) (lib S')) C c).
    { intros q c Y Z Hc Lv. right. split; [exact HC|]. rewrite (k_same _ _ _ K) in Hc; [|intros [->|[]]; now apply Z|now apply Lf].
      destruct x as [| |f m]; cbn in O; [contradiction| |].
      - destruct O as (-> & O). destruct Y as [->|[]]. now elim Z.
      - destruct O as (q' & c' & -> & _ & _ & O & _). destruct Y as [->|[->|[]]]; [now elim Z|]. rewrite O in Hc. injection Hc as <-. cbn. eauto. }
    assert (Lv : (length vs = length vs)%nat) by reflexivity.
    destruct D as [(-> & X' & q & Lq & O' & NL)|(-> & X' & O' & NL & F)]; rewrite X' in Run.
    - rewrite X in Run. exists (OInit i None), (replace vs i (a, Some p)). exists (mk_py (lib S') (none_refs S') None), (replace xs i (Has true [], [p; q])).
      split; [rewrite replace_same_id by exact Hi; exact Run|]. cbn [lib none_refs exn]. split; [exact Er'|]. split; [reflexivity|]. split; [exact (k_tries _ _ _ K)|].
      split; [|split; [reflexivity|split; [exact I|split; [|split; [types|split; [discriminate|exists 0%nat; cbn; lia]]]]]].
      + apply (pinv_change P _ C s0 (lib S) (lib S') vs xs i a (Some p) (Some p) (x, fp)); auto; try discriminate.
        * cbn [snd]. intros y [<-|[<-|[]]]; auto.
        * intros y c Y Z Lv'. right. exact (NL y c Y Z Lv').
        * cbn [snd]. intros y c Y Z. apply Left; [exact Y|]. intros ->. apply Z. now left.
      + apply (sim_one _ vs xs i a (Some p) (Some p) (x, fp)); auto; [reflexivity|]. intros l n' Hn Hf. cbn [fst]. destruct x as [| |f m]; [now elim NG|now apply F_init_bare|now apply F_init].
    - exists (OInit i (Some X_MemoryError)), (replace vs i (a, Some p)). exists (mk_py (lib S') (none_refs S') None), (replace xs i (Bare, [p])).
      split; [rewrite replace_same_id by exact Hi; exact Run|]. cbn [lib none_refs exn]. split; [exact Er'|]. split; [reflexivity|]. split; [exact (k_tries _ _ _ K)|].
      split; [|split; [reflexivity|split; [exact I|split; [|split; [types|split; [discriminate|exists 0%nat; cbn; lia]]]]]].
      + apply (pinv_change P _ C s0 (lib S) (lib S') vs xs i a (Some p) (Some p) (x, fp)); auto; try discriminate.
        * cbn [snd]. intros y [<-|[]]; auto.
        * intros y c Y Z Lv'. right. destruct (NL y c Y Z Lv').
        * cbn [snd]. intros y c Y Z. apply Left; [exact Y|]. intros ->. apply Z. now left.
      + apply (sim_one _ vs xs i a (Some p) (Some p) (x, fp)); auto; [reflexivity|]. intros l n' Hn Hf. cbn [fst]. apply F_init_fails; auto.
  Qed.

  Lemma op_delete : forall P (C : Prop) s0 S vs xs i, pinv P C s0 (lib S) vs xs -> errs (lib S) = [] -> exn S = None -> op_post P C s0 (PDelete i) vs xs S.
  Proof.
    intros P C s0 S vs xs i H Er X. destruct (self_of vs i) as [[a p]|] eqn:Q; [|apply (op_skip _ _ _ _ _ _ _ i H Er X Q); [cbn; rewrite Q; reflexivity|reflexivity]].
    destruct (self_some _ _ _ _ _ _ _ _ _ H Q) as (Hi & x & fp & Hx & O & Lf).
    destruct (free_ok a p fp x S (p_good _ _ _ _ _ _ H) Er X O) as (S' & R & K & Er' & NR & NL & D).
    assert (Run : run_op E (PDelete i) vs S = PDone (ODelete i (exn S'), replace vs i (a, None)) (mk_py (lib S') (none_refs S') None)).
    { cbn [run_op]. rewrite Q. erewrite pbind_done by exact R. erewrite pbind_done by reflexivity. reflexivity. }
    exists (ODelete i (exn S')), (replace vs i (a, None)), (mk_py (lib S') (none_refs S') None), (replace xs i (Gone, [])).
    split; [exact Run|]. cbn [lib none_refs exn]. split; [exact Er'|]. split; [reflexivity|]. split; [exact (k_tries _ _ _ K)|].
    split; [|split; [reflexivity|split; [exact I|split; [|split; [types|split; [discriminate|exists 0%nat; cbn; lia]]]]]].
    - apply (pinv_change P _ C s0 (lib S) (lib S') vs xs i a (Some p) None (x, fp)); auto; try discriminate.
      + intros q [].
      + cbn [snd]. intros q c Y _ Hc Lv. destruct x as [| |f m]; [contradiction O| |].
        * destruct D as (_ & D). rewrite D in Hc. cbn in O. destruct O as (-> & O). destruct Y as [<-|[]]. rewrite O in Hc. injection Hc as <-. left. split; [left; exact (p_bare _ _ _ _ _ _ H i _ Hx eq_refl)|reflexivity].
        * destruct D as (_ & D). rewrite (D q c Y Hc) in Lv. discriminate.
    - apply (sim_one _ vs xs i a (Some p) None (x, fp)); auto; [reflexivity|]. intros l n' Hn Hf. cbn [fst]. destruct x as [| |f m]; [contradiction O| |].
      + destruct D as (-> & _). now apply F_delete_bare.
      + destruct D as (-> & _). now apply F_delete.
  Qed.

  Lemma op_update : forall P (C : Prop) s0 S vs xs i x, pinv P C s0 (lib S) vs xs -> errs (lib S) = [] -> exn S = None -> valid_op E s0 (PUpdate i x) ->
    op_post P C s0 (PUpdate i x) vs xs S.
  Proof.
    intros P C s0 S vs xs i x H Er X V. destruct (self_of vs i) as [[a p]|] eqn:Q; [|apply (op_skip _ _ _ _ _ _ _ i H Er X Q); [cbn; rewrite Q; reflexivity|reflexivity]].
    destruct (self_some _ _ _ _ _ _ _ _ _ H Q) as (Hi & y & fp & Hx & O & Lf).
    assert (Gv : given1 (lib S) x = given1 s0 x) by (destruct x as [x|]; [exact (proj2 (given_ok _ _ _ _ _ _ _ H V))|reflexivity]).
    assert (NG : y <> Gone) by (intros ->; exact O).
    (* a call that fails without touching memory *)
    assert (Bad : forall e S', py_update E a p x S = PDone RNull S' -> exn S' = Some e -> mem (lib S') = mem (lib S) -> tries (lib S') = tries (lib S) ->
      errs (lib S') = [] -> none_refs S' = none_refs S ->
      (forall l (n' : Prop), follows n' a i y l -> follows n' a i y (OUpdate i (given1 s0 x) (Some e) :: l)) -> op_post P C s0 (PUpdate i x) vs xs S).
    { intros e S' R Xe Ms Ts Es NR F. exists (OUpdate i (given1 s0 x) (Some e)), (replace vs i (a, Some p)), (mk_py (lib S') (none_refs S') None), (replace xs i (y, fp)).
      rewrite !replace_same_id by assumption. split.
      { cbn [run_op]. rewrite Q. erewrite pbind_done by reflexivity. erewrite pbind_done by exact R. erewrite pbind_done by (apply look_null; eassumption). rewrite Gv. reflexivity. }
      cbn [lib none_refs exn]. split; [exact Es|]. split; [reflexivity|]. split; [lia|].
      assert (K : keeps [] (lib S) (lib S')) by (apply (keeps_same_mem [] _ (lib S)); [apply keeps_refl; exact (p_good _ _ _ _ _ _ H)|exact Ms|lia]).
      split; [apply (pinv_same P _ C s0 (lib S)); [exact H|auto|exact K|apply (nl_mem _ (lib S)); [apply newlive_refl|exact Ms]]|].
      split; [now split|]. split; [exact I|]. split; [|split; [types|split; [discriminate|exists 0%nat; cbn; lia]]].
      pose proof (sim_one (saf (lib S) (lib S')) vs xs i a (Some p) (Some p) (y, fp) y fp (OUpdate i (given1 s0 x) (Some e)) Hi Hx eq_refl) as Z.
      rewrite !replace_same_id in Z by assumption. apply Z. intros l n' _ Hf. now apply F. }
    destruct x as [[b n| |]|].
    - cbn [valid_op] in V. destruct (given_ok _ _ _ _ _ _ _ H V) as ((A & Hn) & _). cbn [given1 given] in *. destruct y as [| |f m]; [now elim NG| |].
      + pose proof O as O'. cbn in O'. destruct O' as (-> & _).
        destruct (update_bare E a p b n S Er O (p_good _ _ _ _ _ _ H) A Hn) as (S' & R & Ms & Ts & Es & NR & Xe).
        apply (Bad X_IOError S'); auto. intros l n' Hf. now apply F_update_bare.
      + destruct (update_ok E a p fp f m b n S (p_good _ _ _ _ _ _ H) Er O A Hn) as (S' & R & K & Es & NR & Xe & NL & O').
        injection Gv as Gv. rewrite Gv in O'. set (d := bytes_at s0 b n) in *.
        exists (OUpdate i (Some d) None), (replace vs i (a, Some p)), (mk_py (lib S') (none_refs S' + -1) None), (replace xs i (Has f (m ++ d), fp)).
        split.
        { cbn [run_op]. rewrite Q. erewrite pbind_done by reflexivity. erewrite pbind_done by exact R. erewrite pbind_done by (apply look_none; eassumption). cbn [given1 given].
          rewrite Gv. rewrite replace_same_id by exact Hi. reflexivity. }
        cbn [lib none_refs exn]. split; [exact Es|]. split; [reflexivity|]. split; [exact (k_tries _ _ _ K)|].
        split; [|split; [now split|split; [exact I|split; [|split; [types|split; [discriminate|exists 0%nat; cbn; lia]]]]]].
        * apply (pinv_change P _ C s0 (lib S) (lib S') vs xs i a (Some p) (Some p) (Has f m, fp)); auto; try discriminate.
          -- intros y c Y Z Lv. destruct (NL y c Y Z Lv).
          -- cbn [snd]. intros y c Y Z. contradiction.
        * apply (sim_one _ vs xs i a (Some p) (Some p) (Has f m, fp)); auto; [reflexivity|]. intros l n' Hn' Hf. now apply F_update.
    - assert (R : py_update E a p (Some AOther) S = PDone RNull (mk_py (lib S) (none_refs S) (Some X_TypeError))) by reflexivity.
      apply (Bad X_TypeError _ R); auto. intros l n' Hf. apply F_update_bad; auto.
    - assert (R : py_update E a p (Some AFails) S = PDone RNull (mk_py (lib S) (none_refs S) (Some X_RuntimeError))) by reflexivity.
      apply (Bad X_RuntimeError _ R); auto. intros l n' Hf. apply F_update_bad; auto.
    - assert (R : py_update E a p None S = PDone RNull (mk_py (lib S) (none_refs S) (Some X_TypeError))) by reflexivity.
      apply (Bad X_TypeError _ R); auto. intros l n' Hf. apply F_update_bad; auto.
  Qed.

  Lemma op_finalize : forall P (C : Prop) s0 S vs xs i, pinv P C s0 (lib S) vs xs -> errs (lib S) = [] -> exn S = None -> op_post P C s0 (PFinalize i) vs xs S.
  Proof.
    intros P C s0 S vs xs i H Er X. destruct (self_of vs i) as [[a p]|] eqn:Q; [|apply (op_skip _ _ _ _ _ _ _ i H Er X Q); [cbn; rewrite Q; reflexivity|reflexivity]].
    destruct (self_some _ _ _ _ _ _ _ _ _ H Q) as (Hi & y & fp & Hx & O & Lf). destruct y as [| |f m]; [contradiction O| |].
    - pose proof O as O'. cbn in O'. destruct O' as (-> & _).
      destruct (finalize_bare E a p S (p_good _ _ _ _ _ _ H) O) as (S' & R & K & Es & NR & Xe & NL).
      exists (OFinalize i (inl X_IOError)), (replace vs i (a, Some p)), (mk_py (lib S') (none_refs S') None), (replace xs i (Bare, [p])).
      split.
      { cbn [run_op]. rewrite Q. erewrite pbind_done by exact R. erewrite pbind_done by (apply look_null; eassumption). rewrite replace_same_id by exact Hi. reflexivity. }
      cbn [lib none_refs exn]. split; [exact Es|]. split; [reflexivity|]. split; [exact (k_tries _ _ _ K)|].
      split; [|split; [reflexivity|split; [exact I|split; [|split; [types|split; [discriminate|exists 0%nat; cbn; lia]]]]]].
      + rewrite !replace_same_id by assumption. apply (pinv_same P _ C s0 (lib S)); auto.
      + apply (sim_one _ vs xs i a (Some p) (Some p) (Bare, [p])); auto; [reflexivity|]. intros l n' Hn' Hf. now apply F_finalize_bare.
    - destruct (finalize_ok E a p fp f m S (p_good _ _ _ _ _ _ H) Er X O) as (r & S' & R & Gi & O').
      destruct (look_gives _ _ _ _ _ _ Gi) as (d & S'' & R2 & K & NL & Es & Xe & Same & D); [intros q Y; now apply Lf|].
      assert (O'' : own (lib S'') a p fp (Has false [])) by (apply (own_same (lib S')); [exact O'|intros q Y; apply Same; now apply Lf]).
      exists (OFinalize i d), (replace vs i (a, Some p)), S'', (replace xs i (Has false [], fp)).
      split.
      { cbn [run_op]. rewrite Q. erewrite pbind_done by exact R. erewrite pbind_done by exact R2. rewrite replace_same_id by exact Hi. reflexivity. }
      split; [exact Es|]. split; [exact Xe|]. split; [exact (k_tries _ _ _ K)|].
      split; [|split; [reflexivity|split; [exact I|split]]].
      + apply (pinv_change P _ C s0 (lib S) (lib S'') vs xs i a (Some p) (Some p) (Has f m, fp)); auto; try discriminate.
        * intros y c Y Z Lv. destruct (NL y c Y Z Lv).
        * cbn [snd]. intros y c Y Z. contradiction.
      + apply (sim_one _ vs xs i a (Some p) (Some p) (Has f m, fp)); auto; [reflexivity|]. intros l n' Hn' Hf. cbn [fst].
        destruct D as [(-> & _)|(-> & F & _)]; [now apply F_finalize|]. apply F_finalize_fails; auto.
      + split; [types|]. split; [discriminate|]. exists 0%nat. cbn. destruct D as [(_ & D)|(_ & _ & [D|D])]; lia.
  Qed.

  (* a calculation that does not touch memory *)
  Lemma op_calc_bad : forall P (C : Prop) s0 S vs xs o ob S', pinv P C s0 (lib S) vs xs -> errs (lib S) = [] ->
    run_op E o vs S = PDone (ob, vs) S' -> lib S' = lib S -> none_refs S' = none_refs S -> exn S' = None -> shows s0 o ob ->
    (forall n : Prop, calculated n ob) ->
    match ob with OCalculate _ None (inl _) | OHmac _ None (inl _) => True | _ => False end -> op_post P C s0 o vs xs S.
  Proof.
    intros P C s0 S vs xs o ob S' H Er R Ls NR X Sh Ca T. exists ob, vs, S', xs. split; [exact R|]. rewrite Ls. split; [exact Er|]. split; [exact X|]. split; [reflexivity|].
    split; [apply (pinv_same P _ C s0 (lib S)); [exact H|auto|apply keeps_refl; exact (p_good _ _ _ _ _ _ H)|apply newlive_refl]|]. split; [exact Sh|]. split; [apply Ca|].
    assert (Mo : made o = [] /\ forall a, o <> PNew a) by (destruct o; cbn in Sh; try (destruct ob; contradiction); (split; [reflexivity|discriminate])).
    destruct Mo as (Mo & No). split; [apply sim_none|split; [now rewrite Mo, app_nil_r|split; [intros a ->; now elim (No a)|exists 0%nat]]].
    - destruct ob; try contradiction; exact I.
    - intros. eapply gone; eassumption.
    - destruct ob; try contradiction; destruct data; try contradiction; destruct r; try contradiction; cbn; lia.
  Qed.
  Lemma op_calc_good : forall P (C : Prop) s0 S vs xs o mkob dig r S' (Hmk : (exists a d, forall y, mkob y = OCalculate a (Some d) y) \/ (exists a d, forall y, mkob y = OHmac a (Some d) y)),
    pinv P C s0 (lib S) vs xs -> gives E [] dig 1 S r S' ->
    (forall d S'', look r S' = PDone d S'' -> run_op E o vs S = PDone (mkob d, vs) S'') ->
    (forall d, shows s0 o (mkob d)) ->
    (forall n : Prop, calculated n (mkob (inr dig)) /\ (n -> calculated n (mkob (inl X_IOError)))) -> op_post P C s0 o vs xs S.
  Proof.
    intros P C s0 S vs xs o mkob dig r S' Hmk H Gi R Sh Ca. destruct (look_gives _ _ _ _ _ _ Gi) as (d & S'' & R2 & K & NL & Es & Xe & _ & D); [intros q []|].
    exists (mkob d), vs, S'', xs. split; [now apply R|]. split; [exact Es|]. split; [exact Xe|]. split; [exact (k_tries _ _ _ K)|].
    split; [apply (pinv_same P _ C s0 (lib S)); auto|]. split; [apply Sh|].
    assert (Mo : made o = [] /\ forall a, o <> PNew a).
    { specialize (Sh (inr [])). destruct Hmk as [(a & x & M0)|(a & x & M0)]; rewrite M0 in Sh; destruct o; cbn in Sh; try contradiction; split; try reflexivity; discriminate. }
    destruct Mo as (Mo & No). split; [|split; [apply sim_none|split; [now rewrite Mo, app_nil_r|split; [intros a ->; now elim (No a)|]]]].
    - destruct D as [(-> & _)|(-> & F & _)]; now apply Ca.
    - destruct Hmk as [(a & x & M0)|(a & x & M0)]; rewrite M0; exact I.
    - intros. eapply gone; eassumption.
    - assert (Cn : calculations [mkob d] = 1%nat) by (destruct Hmk as [(a & x & M0)|(a & x & M0)]; rewrite M0; reflexivity). rewrite Cn.
      assert (Dn : digests_seen [mkob d] = match d with inr _ => 1%nat | inl _ => 0%nat end) by (destruct Hmk as [(a & x & M0)|(a & x & M0)]; rewrite M0; destruct d; reflexivity). rewrite Dn.
      destruct D as [(-> & D)|(-> & _ & [D|D])]; [exists 1%nat|exists 0%nat|exists 1%nat]; rewrite D; split; lia.
  Qed.

  Lemma op_ok : forall P (C : Prop) s0 S vs xs o, pinv P C s0 (lib S) vs xs -> errs (lib S) = [] -> exn S = None -> valid_op E s0 o ->
    (forall i, o = PInit i -> C) ->
    op_post P C s0 o vs xs S.
  Proof.
    intros P C s0 S vs xs o H Er X V HC. pose proof (p_good _ _ _ _ _ _ H) as G. destruct o as [a|i|i x|i|i|a x|a x].
    - now apply op_new.
    - apply op_init; eauto.
    - now apply op_update.
    - now apply op_finalize.
    - now apply op_delete.
    - destruct x as [[p n| |]|].
      + cbn [valid_op] in V. destruct (given_ok _ _ _ _ _ _ _ H V) as ((A & Hn) & Gv). cbn [given] in Gv. injection Gv as Gv.
        destruct (calculate_gives E a p n S G Er A Hn) as (r & S' & R & Gi). rewrite Gv in Gi.
        apply (op_calc_good P C s0 S vs xs _ (OCalculate a (Some (bytes_at s0 p n))) (lib_hash a (bytes_at s0 p n)) r S'); auto.
        * left. eauto.
        * intros d S'' R2. cbn [run_op]. erewrite pbind_done by reflexivity. erewrite pbind_done by exact R. erewrite pbind_done by exact R2. cbn [given1 given]. rewrite Gv. reflexivity.
        * intros d. now split.
        * intros n'. cbn. split; auto.
      + eapply (op_calc_bad P C s0 S vs xs _ (OCalculate a None (inl X_TypeError))); [exact H|exact Er|reflexivity|reflexivity|reflexivity|reflexivity|now split|cbn; auto|exact I].
      + eapply (op_calc_bad P C s0 S vs xs _ (OCalculate a None (inl X_RuntimeError))); [exact H|exact Er|reflexivity|reflexivity|reflexivity|reflexivity|now split|cbn; auto|exact I].
      + eapply (op_calc_bad P C s0 S vs xs _ (OCalculate a None (inl X_TypeError))); [exact H|exact Er|reflexivity|reflexivity|reflexivity|reflexivity|now split|cbn; auto|exact I].
    - destruct x as [[k d]|].
      2:{ eapply (op_calc_bad P C s0 S vs xs _ (OHmac a None (inl X_TypeError))); [exact H|exact Er|reflexivity|reflexivity|reflexivity|reflexivity|now split|cbn; auto|exact I]. }
      cbn [valid_op] in V. destruct V as (Vk & Vd). destruct (given_ok _ _ _ _ _ _ _ H Vk) as (Ak & Gk). destruct (given_ok _ _ _ _ _ _ _ H Vd) as (Ad & Gd).
      destruct k as [kp kn| |].
      2:{ eapply (op_calc_bad P C s0 S vs xs _ (OHmac a None (inl X_ValueError))); [exact H|exact Er|reflexivity|reflexivity|reflexivity|reflexivity|now split|cbn; auto|exact I]. }
      2:{ eapply (op_calc_bad P C s0 S vs xs _ (OHmac a None (inl X_ValueError))); [exact H|exact Er|reflexivity|reflexivity|reflexivity|reflexivity|now split|cbn; auto|exact I]. }
      cbn [valid_arg] in Ak. destruct Ak as (Ak & Hk).
      assert (Kn : (ssize_max E <? kn) = false) by (apply N.ltb_ge; exact Hk).
      destruct d as [p n| |].
      + cbn [valid_arg] in Ad. destruct Ad as (A & Hn). cbn [given] in Gk, Gd. injection Gk as Gk. injection Gd as Gd.
        destruct (hmac_gives E a kp kn p n S G Er Ak Hk A Hn) as (r & S' & R & Gi). rewrite Gk, Gd in Gi.
        apply (op_calc_good P C s0 S vs xs _ (OHmac a (Some (bytes_at s0 kp kn, bytes_at s0 p n))) (lib_hmac a (bytes_at s0 kp kn) (bytes_at s0 p n)) r S'); auto.
        * right. eauto.
        * intros d S'' R2. cbn [run_op]. erewrite pbind_done by reflexivity. erewrite pbind_done by exact R. erewrite pbind_done by exact R2. cbn [given2 given]. rewrite Gk, Gd. reflexivity.
        * intros d. now split.
        * intros n'. cbn. split; auto.
      + eapply (op_calc_bad P C s0 S vs xs _ (OHmac a None (inl X_TypeError))); [exact H|exact Er|cbn [run_op py_calculate_hmac]; rewrite Kn; reflexivity|reflexivity|reflexivity|reflexivity|now split|cbn; auto|exact I].
      + eapply (op_calc_bad P C s0 S vs xs _ (OHmac a None (inl X_RuntimeError))); [exact H|exact Er|cbn [run_op py_calculate_hmac]; rewrite Kn; reflexivity|reflexivity|reflexivity|reflexivity|now split|cbn; auto|exact I].
  Qed.

  Lemma seen_cons : forall o l, digests_seen (o :: l) = (digests_seen [o] + digests_seen l)%nat.
  Proof. intros o l. unfold digests_seen. cbn [filter]. destruct (match o with OCalculate _ _ (inr _) | OHmac _ _ (inr _) => true | _ => false end); reflexivity. Qed.
  Lemma calculations_cons : forall o l, calculations (o :: l) = (calculations [o] + calculations l)%nat.
  Proof. intros o l. unfold calculations. cbn [filter]. destruct (match o with OCalculate _ (Some _) _ | OHmac _ (Some _) _ => true | _ => false end); reflexivity. Qed.
  Lemma calculated_mono : forall (n n' : Prop) o, (n -> n') -> calculated n o -> calculated n' o.
  Proof. intros n n' o H. destruct o as [| | | | |a [d|] r|a [[k d]|] r|]; cbn; tauto. Qed.

  Lemma program_ok : forall l (P C : Prop) s0 S vs xs, pinv P C s0 (lib S) vs xs -> errs (lib S) = [] -> exn S = None -> Forall (valid_op E s0) l ->
    (forall i, In (PInit i) l -> C) ->
    exists os vs' S' xs', run_program E l vs S = PDone (os, vs') S' /\ errs (lib S') = [] /\ exn S' = None /\ (tries (lib S) <= tries (lib S'))%nat /\
    pinv (P \/ saf (lib S) (lib S')) C s0 (lib S') vs' xs' /\ shown s0 (length vs) l os /\ map fst vs' = map fst vs ++ flat_map made l /\ Forall (calculated (saf (lib S) (lib S'))) os /\
    (forall i a v, nth_error vs i = Some (a, v) -> exists v', nth_error vs' i = Some (a, v')) /\
    (forall i a v y, nth_error vs i = Some (a, v) -> nth_error xs i = Some y ->
       forall n' : Prop, (saf (lib S) (lib S') -> n') -> follows n' a i (fst y) os) /\
    (forall i a v, nth_error vs i = None -> nth_error vs' i = Some (a, v) -> forall n' : Prop, (saf (lib S) (lib S') -> n') -> born n' a i os) /\
    exists k, none_refs S' = (none_refs S + Z.of_nat k)%Z /\ (digests_seen os <= k <= calculations os)%nat.
  Proof.
    induction l as [|o l IH]; intros P C s0 S vs xs H Er X V HC.
    - exists [], vs, S, xs. split; [reflexivity|]. split; [exact Er|]. split; [exact X|]. split; [reflexivity|].
      split; [apply (pinv_same P _ C s0 (lib S)); [exact H|auto|apply keeps_refl; exact (p_good _ _ _ _ _ _ H)|apply newlive_refl]|].
      split; [exact I|]. split; [now rewrite app_nil_r|]. split; [constructor|]. split; [eauto|]. split; [intros; apply F_end|]. split; [intros i a v Y Z; congruence|]. exists 0%nat. cbn. lia.
    - inversion V as [|o' l' Vo Vl]; subst o' l'.
      destruct (op_ok P C s0 S vs xs o H Er X Vo) as (ob & vs1 & S1 & xs1 & R1 & Er1 & X1 & T1 & I1 & Sh1 & Ca1 & (Si1 & Si2 & Si3 & Si4) & Ty1 & Nw1 & k1 & NR1 & Hk1); [intros i ->; apply (HC i); now left|].
      destruct (IH _ C s0 S1 vs1 xs1 I1 Er1 X1 Vl) as (os & vs2 & S2 & xs2 & R2 & Er2 & X2 & T2 & I2 & Sh2 & Ty2 & Ca2 & St2 & Fo2 & Bo2 & k2 & NR2 & Hk2); [intros i Hi; apply (HC i); now right|].
      assert (M1 : saf (lib S) (lib S1) -> saf (lib S) (lib S2)) by (apply saf_mono; lia).
      assert (M2 : saf (lib S1) (lib S2) -> saf (lib S) (lib S2)) by (apply saf_mono; lia).
      exists (ob :: os), vs2, S2, xs2. split; [|split; [exact Er2|split; [exact X2|split; [lia|split; [|split; [|split; [now rewrite Ty2, Ty1, <- app_assoc|split; [|split; [|split; [|split]]]]]]]]]].
      + cbn [run_program]. erewrite pbind_done by exact R1. cbn [snd]. erewrite pbind_done by exact R2. reflexivity.
      + apply (pinv_same ((P \/ saf (lib S) (lib S1)) \/ saf (lib S1) (lib S2)) _ C s0 (lib S2)); [exact I2|tauto|apply keeps_refl; exact (p_good _ _ _ _ _ _ I2)|apply newlive_refl].
      + assert (Lv : length vs1 = (length vs + length (made o))%nat) by (rewrite <- (map_length fst vs1), Ty1, app_length, map_length; reflexivity).
        cbn [shown]. destruct o; cbn [made length] in Lv; rewrite Lv, ?Nat.add_0_r in Sh2; try (now split).
        destruct (Nw1 _ eq_refl) as (e & ->). split; [reflexivity|]. now rewrite Nat.add_1_r in Sh2.
      + constructor; [exact (calculated_mono _ _ _ M1 Ca1)|]. eapply Forall_impl; [|exact Ca2]. intros z. apply calculated_mono. exact M2.
      + intros i a v Hi. destruct (Si1 i a v Hi) as (v1 & Hv1). exact (St2 i a v1 Hv1).
      + intros i a v y Hi Hy n' Hn. destruct (Si1 i a v Hi) as (v1 & Hv1). destruct (p_vars _ _ _ _ _ _ I1 _ _ _ Hv1) as (y1 & Hy1 & _).
        apply (Si2 i a v y y1 Hi Hy Hy1); [auto|]. apply (Fo2 i a v1 y1 Hv1 Hy1). auto.
      + intros i a v Hi Hv n' Hn. destruct (nth_error vs1 i) as [[b v1]|] eqn:Hv1.
        * assert (b = a) by (destruct (St2 i b v1 Hv1) as (v2 & Hv2); congruence). subst b. destruct (p_vars _ _ _ _ _ _ I1 _ _ _ Hv1) as (y1 & Hy1 & _).
          apply (Si3 i a v1 y1 Hi Hv1 Hy1); [auto|]. apply (Fo2 i a v1 y1 Hv1 Hy1). auto.
        * apply B_later; [intros r; now apply Si4|]. apply (Bo2 i a v Hv1 Hv). auto.
      + exists (k1 + k2)%nat. rewrite seen_cons, calculations_cons. split; lia.
  Qed.

  (* from the beginning *)
  Lemma pinv_start : forall C s0, good_state s0 -> pinv False C s0 s0 [] [].
  Proof.
    intros C s0 G. constructor; try assumption; try reflexivity.
    - intros [|i] a v Hi; discriminate.
    - intros [|i] j y z q Hi; discriminate.
    - intros q c Q Hc _. exfalso. assert (q < length (mem s0))%nat by (apply nth_error_Some; congruence). lia.
    - intros [|i] y Hi; discriminate.
  Qed.
End Program.
