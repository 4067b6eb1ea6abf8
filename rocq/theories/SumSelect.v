(* Selecting digests, the buffer size and printing. *)
From Coq Require Import String Ascii Arith NArith ZArith List Bool Lia.
From Verif Require Import Words Spec Machine MachineFacts Context ContextFacts ReprFacts DigestFacts Hash HashFacts HmacFacts
  Vocab HistoryFacts LibProofs LibTheorems ToolStrings ToolVocab ToolStringsFacts ToolConvertFacts ToolProofs SumHandle SumVocab SumFacts SumProcess SumMain.
Import ListNotations.
Open Scope N_scope.

Definition same_list (x y : list N) : bool := if list_eq_dec N.eq_dec x y then true else false.
Lemma same_list_cons : forall a b x y, same_list (a :: x) (b :: y) = (a =? b) && same_list x y.
Proof.
  intros. unfold same_list. destruct (N.eqb_spec a b) as [->|N]; cbn [andb].
  - destruct (list_eq_dec N.eq_dec x y), (list_eq_dec N.eq_dec (b :: x) (b :: y)); congruence.
  - destruct (list_eq_dec N.eq_dec (a :: x) (b :: y)); congruence.
Qed.

Lemma compare_ok : forall x y n, length x = length y -> (length x <= n <= S (length x))%nat ->
  compare n (x ++ [0]) (y ++ [0]) = Some (same_list x y).
Proof.
  induction x as [|a x IH]; intros [|b y] n L Hn; try discriminate.
  - destruct n as [|[|n]]; cbn in *; try reflexivity. lia.
  - destruct n as [|n]; [cbn in Hn; lia|]. cbn [compare app tl]. unfold aget. cbn [nth_error N.to_nat]. cbn.
    rewrite same_list_cons. destruct (a =? b); cbn [andb]; [|reflexivity]. apply IH; cbn in *; lia.
Qed.

Definition entry_ok (x : N * string * nat * algid) : Prop :=
  let '(size, name, n, _) := x in
  size = N.of_nat (S (length (literal name))) /\ (length (literal name) <= n <= S (length (literal name)))%nat.

Lemma lookup_ok : forall l x, Forall entry_ok l ->
  exists r, lookup l (x ++ [0]) = Some r /\
  match r with
  | Some a => exists size name n, In (size, name, n, a) l /\ x = literal name
  | None => forall size name n a, In (size, name, n, a) l -> x <> literal name
  end.
Proof.
  induction l as [|[[[size name] n] a] l IH]; intros x F.
  { exists None. split; [reflexivity|]. intros ? ? ? ? []. }
  inversion F as [|? ? Hsn F' Q]; subst. cbn [entry_ok] in Hsn. destruct Hsn as (-> & Hn). cbn [lookup].
  destruct (IH x F') as (r & Hr & Xr).
  assert (Next : x <> literal name -> match r with
     | Some a0 => exists s' n' m', In (s', n', m', a0) ((N.of_nat (S (length (literal name))), name, n, a) :: l) /\ x = literal n'
     | None => forall s' n' m' a0, In (s', n', m', a0) ((N.of_nat (S (length (literal name))), name, n, a) :: l) -> x <> literal n'
     end).
  { intros Nx. destruct r as [b|].
    - destruct Xr as (s' & n' & m' & I & Q). exists s', n', m'. split; [now right|exact Q].
    - intros s' n' m' b [I|I]; [injection I as <- <- <- <-; exact Nx|now apply (Xr s' n' m' b)]. }
  rewrite app_length. cbn [length]. destruct (N.eqb_spec (N.of_nat (length x + 1)) (N.of_nat (S (length (literal name))))) as [Q|Q].
  - assert (L : length x = length (literal name)) by lia. rewrite compare_ok by (try exact L; lia). unfold same_list.
    destruct (list_eq_dec N.eq_dec x (literal name)) as [E|E]; [|exists r; split; [exact Hr|now apply Next]].
    exists (Some a). split; [reflexivity|]. eexists _, _, _. split; [left; reflexivity|exact E].
  - exists r. split; [exact Hr|]. apply Next. intros ->. lia.
Qed.

Lemma names_ok : Forall entry_ok names.
Proof. unfold names. repeat (constructor; [cbn; lia|]). constructor. Qed.

Lemma names_is_name : forall size name n a, In (size, name, n, a) names -> In name (digest_names a).
Proof.
  assert (F : Forall (fun x : N * string * nat * algid => let '(_, name, _, a) := x in In name (digest_names a)) names).
  { unfold names. repeat (constructor; [cbn; tauto|]). constructor. }
  intros size name n a I. rewrite Forall_forall in F. exact (F _ I).
Qed.
Lemma is_name_names : forall a name, In name (digest_names a) -> exists size n, In (size, name, n, a) names.
Proof.
  assert (F : forall a, Forall (fun x => existsb (fun y : N * string * nat * algid => let '(_, n, _, b) := y in String.eqb n x && algid_eqb b a) names = true) (digest_names a)).
  { intros []; cbn [digest_names]; repeat (constructor; [vm_compute; reflexivity|]); constructor. }
  intros a name I. pose proof (proj1 (Forall_forall _ _) (F a) name I) as X. apply existsb_exists in X as ([[[size n] m] b] & In' & Q).
  apply andb_prop in Q as (Q1 & Q2). apply String.eqb_eq in Q1. subst n. exists size, m. replace a with b; [exact In'|]. destruct b, a; try discriminate; reflexivity.
Qed.

Definition name_alg (x : string) : option algid :=
  match filter (fun a => existsb (String.eqb x) (digest_names a)) all_algs with [a] => Some a | _ => None end.
Lemma name_alg_ok : forall a x, In x (digest_names a) -> name_alg x = Some a.
Proof.
  assert (F : forall a, Forall (fun x => name_alg x = Some a) (digest_names a)).
  { intros []; cbn [digest_names]; repeat (constructor; [vm_compute; reflexivity|]); constructor. }
  intros a x I. exact (proj1 (Forall_forall _ _) (F a) x I).
Qed.
Lemma literal_inj : forall x y, literal x = literal y -> x = y.
Proof.
  induction x as [|c x IH]; intros [|d y] Q; try discriminate; [reflexivity|]. injection Q as Q1 Q2.
  f_equal; [|now apply IH]. rewrite <- (ascii_N_embedding c), <- (ascii_N_embedding d), Q1. reflexivity.
Qed.
Lemma name_unique : forall a b x, is_name a x -> is_name b x -> a = b.
Proof.
  intros a b x (t & I & Q) (t' & I' & Q'). assert (t = t') by (apply literal_inj; exact (eq_trans (eq_sym Q) Q')). subst t'.
  apply name_alg_ok in I, I'. congruence.
Qed.

Lemma lookup_names : forall x, exists r, lookup names (x ++ [0]) = Some r /\ forall a, r = Some a <-> is_name a x.
Proof.
  intros x. destruct (lookup_ok names x names_ok) as (r & Hr & X). exists r. split; [exact Hr|]. intros a. split.
  - intros ->. destruct X as (size & name & n & I & Q). exists name. split; [exact (names_is_name _ _ _ _ I)|exact Q].
  - intros N. pose proof N as (t & I & Q). destruct (is_name_names a t I) as (size & n & I'). destruct r as [b|].
    + destruct X as (size' & name & n' & Ib & Qb). f_equal. apply (name_unique b a x); [|exact N].
      exists name. split; [exact (names_is_name _ _ _ _ Ib)|exact Qb].
    + elim (X _ _ _ _ I'). exact Q.
Qed.

Lemma scan_ok : forall xs flags, exists f, scan_segments (map Some xs) flags = Some (true, f) /\
  forall a, f a = true <-> flags a = true \/ exists x, In x xs /\ is_name a x.
Proof.
  induction xs as [|x xs IH]; intros flags.
  - exists flags. split; [reflexivity|]. intros a. split; [now left|]. intros [F|(x & [] & _)]. exact F.
  - cbn [map scan_segments]. destruct (lookup_names x) as (r & Hr & X). rewrite Hr. cbn [obind].
    destruct (IH (match r with Some a => fun b => algid_eqb a b || flags b | None => flags end)) as (f & Hf & Y).
    exists f. split; [exact Hf|]. intros a. rewrite Y. destruct r as [b|].
    + split.
      * intros [F|(y & I & N)]; [|right; exists y; split; [now right|exact N]].
        apply orb_true_iff in F as [F|F]; [|now left]. right. exists x. split; [now left|]. apply X. f_equal. destruct b, a; try discriminate; reflexivity.
      * intros [F|(y & [<-|I] & N)]; [left; rewrite F; apply orb_true_r| |right; exists y; now split].
        left. apply X in N. injection N as ->. destruct a; reflexivity.
    + split.
      * intros [F|(y & I & N)]; [now left|right; exists y; split; [now right|exact N]].
      * intros [F|(y & [<-|I] & N)]; [now left| |right; exists y; now split]. apply X in N. discriminate.
Qed.

(* with a NULL segment the scan stops there *)
Lemma scan_any : forall segs flags, (exists xs, segs = map Some xs) \/
  ((exists xs t, segs = map Some xs ++ None :: t) /\ exists f, scan_segments segs flags = Some (false, f)).
Proof.
  induction segs as [|[x|] segs IH]; intros flags.
  - left. now exists [].
  - cbn [scan_segments]. destruct (lookup_names x) as (r & -> & _). cbn [obind]. destruct (IH (match r with Some a => fun b => algid_eqb a b || flags b | None => flags end)) as [(xs & ->)|((xs & t & ->) & f & Hf)].
    + left. now exists (x :: xs).
    + right. split; [now exists (x :: xs), t|]. exists f. exact Hf.
  - right. split; [now exists [], segs|]. now exists flags.
Qed.

Definition select_ok (E : env) (e : bool) (flags : algid -> bool) (l : list algid) (h : handle) (s : state) (r : Z) (h' : handle) (s' : state) : Prop :=
  wf_state s' /\ handle_ok s' h' /\ unchanged s s' /\ (tries s <= tries s')%nat /\ (length (mem s) <= length (mem s'))%nat /\
  h_self h' = h_self h /\ h_input h' = h_input h /\ (forall a, context (slots h' a) = context (slots h a)) /\
  process_buffer_size h' = process_buffer_size h /\ h_abort h' = h_abort h /\
  (forall a q, hash_string (slots h a) = Some q -> hash_string (slots h' a) = Some q) /\
  (forall a q, hash_string (slots h' a) = Some q -> hash_string (slots h a) = Some q \/ (length (mem s) <= q)%nat) /\
  (forall a, ~ In a l -> slots h' a = slots h a) /\
  (forall p, (length (mem s) <= p < length (mem s'))%nat -> exists a, hash_string (slots h' a) = Some p) /\
  (forall a, calculate (slots h a) = true -> calculate (slots h' a) = true) /\
  ((r = 1%Z /\ errs s' = errs s /\ all_allocs_ok E s s' /\ (forall a, In a l -> calculate (slots h' a) = calculate (slots h a) || flags a)) \/
   (r = (-1)%Z /\ errors_added e s s' /\ some_alloc_failed E s s')).

Lemma select_none : forall E e flags l h s, wf_state s -> handle_ok s h -> (forall a, In a l -> flags a && negb (calculate (slots h a)) = false) ->
  select_ok E e flags l h s 1%Z h s.
Proof.
  intros E e flags l h s W H F. unfold select_ok. split; [exact W|]. split; [exact H|]. split; [apply unchanged_refl|]. split; [lia|]. split; [lia|].
  split; [reflexivity|]. split; [reflexivity|]. split; [reflexivity|]. split; [reflexivity|]. split; [reflexivity|]. split; [auto|]. split; [auto|].
  split; [reflexivity|]. split; [intros; lia|]. split; [auto|]. left. split; [reflexivity|]. split; [reflexivity|]. split; [intros i Hi; lia|].
  intros a Ia. specialize (F a Ia). destruct (calculate (slots h a)), (flags a); try reflexivity; discriminate.
Qed.

Lemma set_twice : forall a x y h b, slots (set_slot a y (set_slot a x h)) b = slots (set_slot a y h) b.
Proof. intros. cbn. destruct (algid_eqb a b); reflexivity. Qed.

Lemma enable_slot_ok : forall E e flags a h s, wf_state s -> handle_ok s h ->
  exists r h' s', enable_slot E flags e a h s = Done (r, h') s' /\ select_ok E e flags [a] h s r h' s'.
Proof.
  intros E e flags a h s W H. unfold enable_slot. destruct (flags a && negb (calculate (slots h a))) eqn:C.
  2:{ exists 1%Z, h, s. split; [reflexivity|]. apply select_none; try assumption. intros b [<-|[]]. exact C. }
  apply andb_prop in C as (Fa & Ca). apply negb_true_iff in Ca.
  assert (Ha : hash_string (slots h a) = None).
  { destruct (hash_string (slots h a)) as [q|] eqn:Q; [|reflexivity]. destruct H as (_ & _ & H). destruct (proj2 (proj2 (H a))) as (_ & X).
    rewrite X in Ca; [discriminate|congruence]. }
  unfold allocate_bytes. destruct (alloc_ok E (tries s)) eqn:A.
  - erewrite bind_done by (now apply allocate_ok). cbv iota beta zeta. unfold ret. set (l := junk_bytes _ _ _). set (h' := set_slot a _ _). set (s' := tick _).
    exists 1%Z, h', s'. split; [reflexivity|].
    assert (Sa : slots h' a = mk_slot true (context (slots h a)) (Some (length (mem s)))) by apply slot_same.
    assert (So : forall b, a <> b -> slots h' b = slots h b).
    { intros b N. unfold h'. rewrite set_twice. now apply slot_other. }
    assert (U : unchanged s s') by apply unchanged_new.
    assert (Cq : heap_bytes s' (length (mem s)) l) by apply cell_new.
    assert (Ls : length (mem s') = S (length (mem s))) by apply new_length.
    unfold select_ok. split; [apply wf_tick_new; [exact W|apply junk_ok]|]. split.
    { pose proof (handle_ok_unchanged s s' h U H) as (Hs & Hi & Hx). split; [exact Hs|]. split; [exact Hi|]. intros b.
      destruct (algid_dec a b) as [<-|N]; [|rewrite So by exact N; apply Hx]. rewrite Sa. cbn [context hash_string calculate].
      split; [apply (Hx a)|]. split; [|split; [discriminate|reflexivity]]. intros q Q. injection Q as <-. exists l. split; [exact Cq|].
      unfold l. rewrite junk_length. destruct (small_sizes E a) as (_ & -> & _). reflexivity. }
    split; [exact U|]. split; [cbn; lia|]. split; [lia|]. split; [reflexivity|]. split; [reflexivity|].
    split; [intros b; destruct (algid_dec a b) as [<-|N]; [now rewrite Sa|now rewrite So]|]. split; [reflexivity|]. split; [reflexivity|].
    split; [intros b q Q; destruct (algid_dec a b) as [<-|N]; [congruence|now rewrite So]|].
    split; [intros b q Q; destruct (algid_dec a b) as [<-|N]; [rewrite Sa in Q; injection Q as <-; right; lia|rewrite So in Q by exact N; now left]|].
    split; [intros b N; apply So; intros ->; apply N; now left|].
    split; [intros p Hp; exists a; rewrite Sa; cbn [hash_string]; f_equal; lia|].
    split; [intros b Cb; destruct (algid_dec a b) as [<-|N]; [congruence|now rewrite So]|].
    left. split; [reflexivity|]. split; [reflexivity|]. split.
    + intros i Hi. change (tries s') with (S (tries s)) in Hi. assert (i = tries s) by lia. now subst.
    + intros b [<-|[]]. rewrite Sa, Fa. cbn [calculate]. now rewrite orb_true_r.
  - erewrite bind_done by (now apply allocate_no). cbv iota beta zeta. erewrite bind_done by apply fail_eq. unfold ret. set (h' := set_slot a _ _).
    eexists _, h', _. split; [reflexivity|].
    assert (So : forall b, slots h' b = slots h b).
    { intros b. unfold h'. destruct (algid_dec a b) as [<-|N]; [|now apply slot_other]. rewrite slot_same, <- Ha. now destruct (slots h a). }
    unfold select_ok. split; [exact W|]. split.
    { destruct H as (Hs & Hi & Hx). split; [exact Hs|]. split; [exact Hi|]. intros b. rewrite So. apply Hx. }
    split; [intros ? ? Hu; exact Hu|]. split; [cbn; lia|]. split; [cbn; lia|]. split; [reflexivity|]. split; [reflexivity|].
    split; [intros b; now rewrite So|]. split; [reflexivity|]. split; [reflexivity|]. split; [intros b q Q; now rewrite So|].
    split; [intros b q Q; rewrite So in Q; now left|]. split; [intros b _; apply So|]. split; [intros p Hp; cbn in Hp; lia|].
    split; [intros b Cb; now rewrite So|]. right. split; [reflexivity|]. split; [apply (errors_added_one e E_MEMORY_INSUFFICIENT); reflexivity|].
    exists (tries s). split; [cbn; lia|exact A].
Qed.

Lemma enable_steps : forall E e flags l h s, NoDup l -> wf_state s -> handle_ok s h ->
  exists r h' s', steps (enable_slot E flags e) l h s = Done (r, h') s' /\ select_ok E e flags l h s r h' s'.
Proof.
  intros E e flags. induction l as [|a t IH]; intros h s ND W H.
  { exists 1%Z, h, s. split; [reflexivity|]. apply select_none; try assumption. intros b []. }
  inversion ND as [|x y Na ND' Q]; subst. cbn [steps].
  destruct (enable_slot_ok E e flags a h s W H) as (r & h1 & s1 & H1 & W1 & O1 & U1 & T1 & L1 & S1 & I1 & C1 & B1 & A1 & K1 & J1 & N1 & P1 & M1 & X1).
  erewrite bind_done by exact H1. cbn [fst snd]. destruct X1 as [(-> & E1 & F1 & G1)|(-> & E1 & F1)].
  - change (1 =? 1)%Z with true. cbn iota.
    destruct (IH h1 s1 ND' W1 O1) as (r & h2 & s2 & H2 & W2 & O2 & U2 & T2 & L2 & S2 & I2 & C2 & B2 & A2 & K2 & J2 & N2 & P2 & M2 & X2).
    exists r, h2, s2. split; [exact H2|]. unfold select_ok. split; [exact W2|]. split; [exact O2|]. split; [eapply unchanged_trans; eassumption|].
    split; [lia|]. split; [lia|]. split; [congruence|]. split; [congruence|]. split; [intros b; now rewrite C2|]. split; [congruence|]. split; [congruence|].
    split; [intros b q Hq; now apply K2, K1|].
    split; [intros b q Hq; destruct (J2 b q Hq) as [X|X]; [now apply J1|right; lia]|].
    split; [intros b Nb; rewrite N2 by (intros X; apply Nb; now right); apply N1; intros [<-|[]]; apply Nb; now left|].
    split.
    { intros p Hp. destruct (Nat.lt_ge_cases p (length (mem s1))) as [X|X]; [|apply P2; lia]. destruct (P1 p) as (b & Hb); [lia|]. exists b. now apply K2. }
    split; [intros b Hb; now apply M2, M1|]. destruct X2 as [(-> & E2 & F2 & G2)|(-> & E2 & F2)].
    + left. split; [reflexivity|]. split; [congruence|]. split.
      * intros i Hi. destruct (Nat.lt_ge_cases i (tries s1)); [apply F1|apply F2]; lia.
      * intros b [<-|Hb]; [rewrite N2 by exact Na; apply G1; now left|]. rewrite G2 by exact Hb. rewrite N1; [reflexivity|].
        intros [<-|[]]. contradiction.
    + right. split; [reflexivity|]. split; [now apply (errors_added_same e s s1)|]. destruct F2 as (i & Hi & F2). exists i. split; [lia|exact F2].
  - change (-1 =? 1)%Z with false. cbn iota. unfold ret. exists (-1)%Z, h1, s1. split; [reflexivity|]. unfold select_ok.
    split; [exact W1|]. split; [exact O1|]. split; [exact U1|]. split; [exact T1|]. split; [exact L1|]. split; [exact S1|]. split; [exact I1|].
    split; [exact C1|]. split; [exact B1|]. split; [exact A1|]. split; [exact K1|]. split; [exact J1|].
    split; [intros b Nb; apply N1; intros [<-|[]]; apply Nb; now left|]. split; [exact P1|]. split; [exact M1|]. right. split; [reflexivity|]. split; [exact E1|exact F1].
Qed.

(* what set_digest_types does *)
Definition types_ok (E : env) (e : bool) (split : list N -> option (list (option (list N)))) (str : list N) (h : handle) (s : state)
  (r : Z) (h' : handle) (s' : state) : Prop :=
  wf_state s' /\ handle_ok s' h' /\ unchanged s s' /\ (tries s <= tries s')%nat /\ (length (mem s) <= length (mem s'))%nat /\
  h_self h' = h_self h /\ h_input h' = h_input h /\ (forall a, context (slots h' a) = context (slots h a)) /\
  process_buffer_size h' = process_buffer_size h /\ h_abort h' = h_abort h /\
  (forall a q, hash_string (slots h a) = Some q -> hash_string (slots h' a) = Some q) /\
  (forall a q, hash_string (slots h' a) = Some q -> hash_string (slots h a) = Some q \/ (length (mem s) <= q)%nat) /\
  (forall a, calculate (slots h a) = true -> calculate (slots h' a) = true) /\
  ((r = 0%Z /\ errs s' = errs s /\ all_allocs_ok E s s' /\ keeps h h' s s' /\ exists xs, split str = Some (map Some xs) /\
    forall a, calculate (slots h' a) = true <-> calculate (slots h a) = true \/ exists x, In x xs /\ is_name a x) \/
   (r = (-1)%Z /\ errors_added e s s' /\ keeps h h' s s' /\ (split str = None \/ some_alloc_failed E s s')) \/
   (r = (-1)%Z /\ errors_added e s s' /\ h' = h /\ exists xs t, split str = Some (map Some xs ++ None :: t))).

Lemma keeps_unchanged : forall h s s', mem s' = mem s -> keeps h h s s'.
Proof. intros h s s' M p Hp. right. split; [|auto]. unfold live_at in *. now rewrite <- M. Qed.

Lemma set_types_ok : forall E split h str e s, wf_state s -> handle_ok s h ->
  exists r h' s', sum_handle_set_digest_types E split (Some h) str e s = Done (r, Some h') s' /\ types_ok E e split str h s r h' s'.
Proof.
  intros E split h str e s W H. cbn [sum_handle_set_digest_types].
  assert (Same : forall k s', mem s' = mem s -> (tries s <= tries s')%nat -> errs s' = (if e : bool then errs s ++ [k] else errs s) -> split str = None \/ some_alloc_failed E s s' -> types_ok E e split str h s (-1)%Z h s').
  { intros k s' M T Er X. unfold types_ok. split; [now apply (wf_same_mem s)|]. split; [apply (handle_ok_cells s); [exact H|]; intros; now rewrite M|].
    split; [intros p c Hp; now rewrite M|]. split; [exact T|]. split; [now rewrite M|]. split; [reflexivity|]. split; [reflexivity|]. split; [reflexivity|]. split; [reflexivity|].
    split; [reflexivity|]. split; [auto|]. split; [auto|]. split; [auto|]. right. left. split; [reflexivity|]. split; [now apply (errors_added_one e k)|].
    split; [now apply keeps_unchanged|exact X]. }
  destruct (split str) as [segs|] eqn:SP.
  2:{ erewrite bind_done by apply fail_eq. unfold ret. eexists _, _, _. split; [reflexivity|]. eapply Same; [reflexivity|cbn; lia|reflexivity|now left]. }
  destruct (alloc_ok E (tries s)) eqn:A.
  2:{ erewrite bind_done by (now apply allocate_no). cbv iota beta. erewrite bind_done by apply fail_eq. unfold ret. eexists _, _, _. split; [reflexivity|].
      eapply Same; [reflexivity|cbn; lia|reflexivity|]. right. exists (tries s). split; [cbn; lia|exact A]. }
  erewrite bind_done by (now apply allocate_ok). cbv iota beta. set (p := length (mem s)). set (s1 := tick (new_cell Heap (OBytes []) s)).
  assert (W1 : wf_state s1) by (apply wf_tick_new; [exact W|constructor]).
  assert (U1 : unchanged s s1) by apply unchanged_new.
  assert (L1 : length (mem s1) = S p) by apply new_length.
  assert (C1 : cell_at s1 p = Some (mk_cell true Heap (OBytes []))) by apply cell_new.
  assert (O1 : handle_ok s1 h) by now apply (handle_ok_unchanged s).
  assert (Np : ~ owned h p) by (intros O; pose proof (owned_lt _ _ _ H O); unfold p in *; lia).
  destruct (scan_any segs (fun _ => false)) as [(xs & ->)|((xs & t & ->) & f & Hf)].
  - destruct (scan_ok xs (fun _ => false)) as (f & Hf & X). rewrite Hf. erewrite bind_done by reflexivity. cbn [fst snd]. cbv iota.
    destruct (enable_steps E e f all_algs h s1 all_nodup W1 O1) as (r & h2 & s2 & H2 & W2 & O2 & U2 & T2 & L2 & S2 & I2 & C2 & B2 & A2 & K2 & J2 & N2 & P2 & M2 & X2).
    erewrite bind_done by exact H2. assert (C12 : cell_at s2 p = Some (mk_cell true Heap (OBytes []))) by now apply U2.
    erewrite bind_done by (eapply mfree_ok; exact C12). unfold ret. cbn [fst snd]. eexists _, _, _. split; [reflexivity|].
    assert (Np2 : ~ owned h2 p).
    { intros [O|[O|(a & [O|O])]]; apply Np.
      - left. congruence.
      - right. left. congruence.
      - right. right. exists a. left. now rewrite <- C2.
      - destruct (J2 a p O) as [Y|Y]; [right; right; exists a; now right|lia]. }
    assert (FK : forall q, q <> p -> cell_at (kill p s2) q = cell_at s2 q) by (intros q Hq; apply cell_kill_other; congruence).
    assert (KP : keeps h h2 s (kill p s2)).
    { intros q Lq. destruct (Nat.eq_dec q p) as [->|Nq]; [exfalso; exact (dead_kill _ _ _ _ C12 Lq)|].
      apply (live_at_same s2) in Lq; [|now apply FK]. destruct (Nat.lt_ge_cases q (length (mem s1))) as [Hq|Hq].
      - right. assert (Hq' : (q < length (mem s))%nat) by (unfold p in *; lia). split.
        + apply (live_at_same s s2); [|exact Lq]. rewrite (unchanged_cell s1 s2) by assumption. now apply unchanged_cell.
        + intros [O|[O|(a & [O|O])]]; [left; congruence|right; left; congruence|right; right; exists a; left; now rewrite C2|right; right; exists a; right; now apply K2].
      - left. destruct (P2 q) as (a & Ha); [pose proof (live_at_lt _ _ Lq); lia|]. right. right. exists a. now right. }
    unfold types_ok. split; [now apply wf_kill|].
    split; [apply (handle_ok_cells s2); [exact O2|]; intros q Oq; apply FK; intros ->; contradiction|].
    split.
    { intros q c Hq. rewrite FK; [apply U2, U1, Hq|]. apply cell_lt in Hq. unfold p. lia. }
    split; [rewrite kill_tries; change (tries s1) with (S (tries s)) in T2; lia|]. split; [rewrite kill_length; unfold p in *; lia|].
    split; [exact S2|]. split; [exact I2|]. split; [exact C2|]. split; [exact B2|]. split; [exact A2|]. split; [exact K2|].
    split; [intros a q Hq; destruct (J2 a q Hq) as [Y|Y]; [now left|right; unfold p in *; lia]|]. split; [exact M2|].
    change (tries s1) with (S (tries s)) in *.
    destruct X2 as [(-> & E2 & F2 & G2)|(-> & E2 & F2)].
    + left. split; [reflexivity|]. split; [rewrite kill_errs; exact E2|]. split.
      { intros i Hi. rewrite kill_tries in Hi. destruct (Nat.eq_dec i (tries s)) as [->|]; [exact A|]. apply F2. change (tries s1) with (S (tries s)). lia. }
      split; [exact KP|]. exists xs. split; [exact SP|]. intros a. rewrite (G2 a (all_in a)), orb_true_iff, X. split; [intros [Y|[Y|Y]]; auto; discriminate|intros [Y|Y]; auto].
    + right. left. split; [reflexivity|]. split; [apply (errors_added_same' e s s2); [apply kill_errs|exact E2]|]. split; [exact KP|]. right.
      destruct F2 as (i & Hi & F2). exists i. split; [rewrite kill_tries; change (tries s1) with (S (tries s)) in Hi; lia|exact F2].
  - rewrite Hf. erewrite bind_done by reflexivity. cbn [fst snd]. cbv iota. erewrite bind_done by apply fail_eq. unfold ret. eexists _, _, _. split; [reflexivity|].
    unfold types_ok. split; [exact W1|]. split; [exact O1|]. split; [exact U1|]. split; [cbn; lia|]. split; [change (length (mem s) <= length (mem s1))%nat; unfold p in *; lia|].
    split; [reflexivity|]. split; [reflexivity|]. split; [reflexivity|]. split; [reflexivity|]. split; [reflexivity|]. split; [auto|]. split; [auto|]. split; [auto|].
    right. right. split; [reflexivity|]. split; [apply (errors_added_one e E_RUNTIME_VALUE_MISSING); reflexivity|]. split; [reflexivity|]. eauto.
Qed.

(* ------------------------------------------------------------ printing *)

Lemma until_zero_ok : forall t r, Forall (fun c => c <> 0) t -> until_zero (t ++ 0 :: r) = Some t.
Proof.
  induction t as [|c t IH]; intros r F; [reflexivity|]. inversion F; subst. cbn [app until_zero].
  destruct (N.eqb_spec c 0); [contradiction|]. now rewrite IH.
Qed.
Lemma hex_nonzero : forall m, Forall is_byte m -> Forall (fun c => c <> 0) (hex m).
Proof. intros m B. eapply Forall_impl; [|apply hex_is_string; exact B]. cbn. intros c [X|X]; lia. Qed.

Lemma print_slot_ok : forall s h m a out, Forall is_byte m -> handle_ok s h -> has_digests s h m ->
  print_slot h out a s = Done (out ++ if calculate (slots h a) then digest_line a m else []) s.
Proof.
  intros s h m a out B H D. unfold print_slot. destruct (calculate (slots h a)) eqn:C; [|rewrite app_nil_r; reflexivity].
  destruct (hash_string (slots h a)) as [q|] eqn:Q.
  2:{ destruct H as (_ & _ & H). elim (proj1 (proj2 (proj2 (H a))) C Q). }
  pose proof (D a q C Q) as Hq. erewrite bind_done by reflexivity.
  erewrite bind_done by (eapply view_ok; [exact (get_cell _ _ _ _ Hq)|cbn [snd]; lia]).
  change (skipn (N.to_nat (snd (q, 0))) (hex (lib_hash a m) ++ [0])) with (hex (lib_hash a m) ++ [0]).
  rewrite until_zero_ok by (apply hex_nonzero, lib_hash_bytes; assumption).
  erewrite bind_done by reflexivity. unfold ret. f_equal. f_equal. unfold digest_line, line_start. destruct a; rewrite <- ?app_assoc; reflexivity.
Qed.

Lemma print_slots_ok : forall s h m l out, Forall is_byte m -> handle_ok s h -> has_digests s h m ->
  mfold (print_slot h) l out s = Done (out ++ flat_map (fun a => if calculate (slots h a) then digest_line a m else []) l) s.
Proof.
  intros s h m. induction l as [|a l IH]; intros out B H D; cbn [mfold flat_map]; [now rewrite app_nil_r|].
  erewrite bind_done by (apply (print_slot_ok s h m); assumption). rewrite IH by assumption. now rewrite <- app_assoc.
Qed.

Lemma fprint_ok : forall s h m e, Forall is_byte m -> handle_ok s h -> has_digests s h m ->
  sum_handle_hash_values_fprint (Some h) true e s = Done (1%Z, digest_lines (fun a => calculate (slots h a)) m) s.
Proof.
  intros s h m e B H D. cbn [sum_handle_hash_values_fprint]. erewrite bind_done by (apply (print_slots_ok s h m); assumption). reflexivity.
Qed.

(* ------------------------------------------------------------ the size of the buffer *)

Lemma set_size_ok : forall E verbose d h t rest e s, (d = None \/ exists x, d = Some x /\ point x) -> Forall (fun c => c <> 0) t ->
  exists r n s', sum_handle_set_process_buffer_size E verbose d (Some h) (t ++ 0 :: rest) (N.of_nat (length t)) e s = Done (r, Some (set_buffer_size n h)) s' /\
  mem s' = mem s /\ tries s' = tries s /\
  ((r = 1%Z /\ n <= ssize_max E /\ s' = s) \/ (r = 0%Z /\ n = process_buffer_size h /\ s' = s) \/
   (r = (-1)%Z /\ n = process_buffer_size h /\ errors_added e s s')).
Proof.
  intros E verbose d h t rest e s Hd Ht. cbn [sum_handle_set_process_buffer_size].
  assert (X : (exists v, byte_size_string_convert verbose d (Some (t ++ 0 :: rest)) (N.of_nat (length t)) true e s = Done (1%Z, Some v) s) \/
              exists s', byte_size_string_convert verbose d (Some (t ++ 0 :: rest)) (N.of_nat (length t)) true e s = Done ((-1)%Z, None) s' /\ only_error e s s').
  { destruct Hd as [->|(x & -> & P)]; [right; apply convert_rejects; auto|].
    destruct (convert_any verbose x t rest e s P Ht) as [(ds & fr & r & sp & l & f & ut & u & tail & _ & _ & _ & _ & X)|X]; [left; eexists; exact X|now right]. }
  assert (Sz : forall n, n <= ssize_max E -> n mod size_mod E = n).
  { intros n Hn. apply N.mod_small. unfold ssize_max, size_mod in *. destruct (plat64 E); lia. }
  assert (Sm : h = set_buffer_size (process_buffer_size h) h) by now destruct h.
  destruct X as [(v & X)|(s' & X & M & T & R & k & Er)]; erewrite bind_done by exact X; cbn [fst snd].
  - change (1 =? -1)%Z with false. change (1 =? 0)%Z with false. cbn [negb]. cbv iota zeta.
    destruct (N.ltb_spec (ssize_max E) v); unfold ret.
    + exists 0%Z, (process_buffer_size h), s. rewrite <- Sm. split; [reflexivity|]. split; [reflexivity|]. split; [reflexivity|]. right. left. auto.
    + rewrite Sz by assumption. exists 1%Z, v, s. split; [reflexivity|]. split; [reflexivity|]. split; [reflexivity|]. left. auto.
  - change (-1 =? -1)%Z with true. cbv iota zeta. erewrite bind_done by apply fail_eq. unfold ret. eexists (-1)%Z, (process_buffer_size h), _.
    rewrite <- Sm. split; [reflexivity|]. split; [exact M|]. split; [exact T|]. right. right. split; [reflexivity|]. split; [reflexivity|].
    apply (errors_added_trans e s s'); [now apply (errors_added_one e k)|]. apply (errors_added_one e E_RUNTIME_GET_FAILED). reflexivity.
Qed.
