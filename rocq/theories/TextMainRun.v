(* The text of main of hmacsum.c does what SumHandle.v says. *)
From Coq Require Import Arith NArith ZArith List Lia Bool String.
From Verif Require Import Words Spec Machine Context Hash ToolStrings SumHandle SumEntry CText TextAll TextTools ToolCalls TextSum SumCalls TextMain MainCalls.
From Verif Require Import Vocab ToolVocab SumVocab LibProofs SumTheorems MachineFacts ContextFacts SumMain SumSelect PyErrorFacts TextFacts TextSteps TextHash TextHmac TextDigest TextSizes
  TextSumSteps TextSumSmall TextSumHash TextSumInit TextSumTypes TextSumEnd TextSumProcess TextSumRun.
Import ListNotations.
Open Scope string_scope.
Open Scope list_scope.
Open Scope N_scope.

(* ------------------------------------------------------------------ what the model returns *)

Definition always {A : Type} (m : M A) (Q : A -> Prop) : Prop := forall s x s', m s = Done x s' -> Q x.
Lemma always_bind : forall A B (m : M A) (f : A -> M B) Q, (forall y, always (f y) Q) -> always (bind m f) Q.
Proof. intros A B m f Q H s x s' R. unfold bind in R. destruct (m s) as [y s1|]; [|discriminate]. exact (H _ _ _ _ R). Qed.
Lemma always_ret : forall A (a : A) (Q : A -> Prop), Q a -> always (ret a) Q.
Proof. intros A a Q H s x s' R. injection R as <- _. exact H. Qed.

Lemma always_and : forall A B (m : M A) (f : A -> M B) Q1 Q, always m Q1 -> (forall y, Q1 y -> always (f y) Q) -> always (bind m f) Q.
Proof. intros A B m f Q1 Q H1 H s x s' R. unfold bind in R. destruct (m s) as [y s1|] eqn:X; [|discriminate]. exact (H _ (H1 _ _ _ X) _ _ _ R). Qed.

(* go through a function *)
Ltac through := repeat first
  [ apply always_bind; intro
  | progress cbv zeta
  | match goal with
    | |- always (if ?c then _ else _) _ => destruct c
    | |- always (match ?c with Some _ => _ | None => _ end) _ => destruct c
    end].

(* the structure stays at its place *)
Definition stays (h : handle) (x : Z * handle) : Prop := h_self (snd x) = h_self h.
Lemma always_steps : forall f, (forall a h, always (f a h) (stays h)) -> forall l h, always (steps f l h) (stays h).
Proof.
  intros f Hf. induction l as [|a l IH]; intros h; [now apply always_ret|]. cbn [steps]. eapply always_and; [apply Hf|]. intros y Hy.
  destruct (fst y =? 1)%Z; [|now apply always_ret]. intros s x s' R. unfold stays in *. rewrite <- Hy. exact (IH _ _ _ _ R).
Qed.
Lemma prepared_stays : forall E h e, always (sum_handle_initialize_integrity_hash E h e) (stays h).
Proof.
  intros E h e. unfold sum_handle_initialize_integrity_hash. eapply always_and.
  - apply always_steps. intros a h1. unfold initialize_slot. through; now apply always_ret.
  - intros y Hy. destruct (fst y =? 1)%Z; [now apply always_ret|].
    assert (D : forall a h1, h_self h1 = h_self h -> always (drop_context a h1) (fun h2 => h_self h2 = h_self h)).
    { intros a h1 H. unfold drop_context. through; now apply always_ret. }
    eapply always_and; [apply D, Hy|]. intros h1 H1. eapply always_and; [apply D, H1|]. intros h2 H2. now apply always_ret.
Qed.
Lemma process_some : forall E W signal t h e,
  always (sum_handle_process_input E W signal t (Some h) e) (fun x => exists h', snd (fst x) = Some h' /\ h_self h' = h_self h).
Proof.
  intros E W signal t h e. cbn [sum_handle_process_input].
  destruct (_ || _); [apply always_bind; intro; apply always_ret; exists h; now split|].
  destruct (in_size W); [|apply always_bind; intro; apply always_ret; exists h; now split].
  apply always_bind; intros [b|]; [|apply always_bind; intro; apply always_ret; exists h; now split].
  eapply always_and; [apply prepared_stays|]. intros y Hy. unfold stays in Hy. through; apply always_ret; eexists; (split; [reflexivity|exact Hy]).
Qed.
Lemma types_some : forall E split h str e,
  always (sum_handle_set_digest_types E split (Some h) str e) (fun x => exists h', snd x = Some h' /\ h_self h' = h_self h).
Proof.
  intros E split h str e. cbn [sum_handle_set_digest_types].
  destruct (split str); [|apply always_bind; intro; apply always_ret; exists h; now split].
  apply always_bind; intros [b|]; [|apply always_bind; intro; apply always_ret; exists h; now split].
  apply always_bind; intros [[] fl]; cbn [fst snd]; [|apply always_bind; intro; apply always_ret; exists h; now split].
  eapply always_and.
  - apply always_steps. intros a h1. unfold enable_slot. through; now apply always_ret.
  - intros y Hy. through; apply always_ret; eexists; (split; [reflexivity|exact Hy]).
Qed.
Lemma size_some : forall E v d h str n e,
  always (sum_handle_set_process_buffer_size E v d (Some h) str n e) (fun x => exists h', snd x = Some h' /\ h_self h' = h_self h).
Proof.
  intros E v d h str n e. cbn [sum_handle_set_process_buffer_size]. through; apply always_ret; eexists; split; reflexivity.
Qed.

(* ------------------------------------------------------------------ what the calls leave *)

Lemma observed : forall A B (C : M (val * A)) (obs : A -> A) (m : M B) (g : B -> val) (o : B -> A) s,
  (x <- C ;; ret (fst x, obs (snd x))) s = (y <- m ;; ret (g y, o y)) s ->
  (m s = Undef /\ C s = Undef) \/ exists y s1 outs, m s = Done y s1 /\ C s = Done (g y, outs) s1 /\ obs outs = o y.
Proof.
  intros A B C obs m g o s H. unfold bind, ret in H. destruct (C s) as [[v outs] s1|], (m s) as [y s2|]; try discriminate; [|now left].
  injection H as H1 H2 H3. cbn [fst snd] in *. subst. right. exists y, s2, outs. auto.
Qed.

Lemma app_split : forall A (a b c d : list A), List.length a = List.length b -> a ++ c = b ++ d -> a = b /\ c = d.
Proof.
  induction a as [|x a IH]; intros [|y b] c d L H; try discriminate; [now split|]. injection L as L. injection H as -> H.
  destruct (IH _ _ _ L H) as [-> ->]. now split.
Qed.
Lemma shaped : forall n m, map no_value m = repeat (Some VNull) n -> exists ms, m = map Some ms /\ List.length ms = n.
Proof.
  induction n as [|n IH]; intros [|[v|] m] H; try discriminate; [now exists []|]. injection H as H. destruct (IH _ H) as (ms & -> & <-). now exists (v :: ms).
Qed.
Lemma left_null : forall outs, seen outs = Some VNull :: None :: repeat (Some VNull) 20 ->
  exists ms, outs = Some VNull :: None :: map Some ms /\ List.length ms = 20%nat.
Proof.
  intros outs H. destruct outs as [|[[]|] [|x m]]; try discriminate. cbn [seen] in H. injection H as -> H.
  destruct (shaped 20 m H) as (ms & -> & L). now exists ms.
Qed.
Lemma left_handle : forall p outs x m, seen outs = Some (VBytes p) :: x :: m -> outs = Some (VBytes p) :: x :: m.
Proof. intros p outs x m H. destruct outs as [|[[]|] [|y n]]; try discriminate; exact H. Qed.
Lemma left_freed : forall outs h k pos, seen_freed outs = freed_outs (Some (Some h)) k pos ->
  exists ms, outs = Some VNull :: None :: map Some (ms ++ [VU R64 (N.of_nat k); VU R64 pos]) /\ List.length ms = 18%nat.
Proof.
  intros outs h k pos H. destruct outs as [|[[]|] [|x m]]; try discriminate.
  assert (H0 : x = None) by (now injection H). subst x.
  assert (H1 : map no_value (firstn 18 m) ++ skipn 18 m = repeat (Some VNull) 18 ++ [Some (VU R64 (N.of_nat k)); Some (VU R64 pos)]) by
    exact (f_equal (fun l => tl (tl l)) H). clear H.
  assert (L : List.length (firstn 18 m) = 18%nat).
  { apply (f_equal (@List.length _)) in H1. rewrite !app_length, map_length, firstn_length, skipn_length, repeat_length in H1. cbn [List.length] in H1.
    rewrite firstn_length. lia. }
  apply app_split in H1; [|now rewrite map_length, repeat_length].
  destruct H1 as [H1 H2]. destruct (shaped _ _ H1) as (ms & Q & L2). exists ms. split; [|exact L2].
  rewrite <- (firstn_skipn 18 m), Q, H2, map_app. reflexivity.
Qed.
Lemma left_processed : forall outs h k, but_offset outs = but_offset (None :: None :: left_members (Some h) k 0) ->
  exists pos, outs = None :: None :: map Some (members h k pos).
Proof.
  intros outs h k H. set (first := fun pos => None :: None :: map Some (removelast (members h k pos))).
  assert (Q : forall pos, None :: None :: left_members (Some h) k pos = first pos ++ [Some (VU R64 pos)]) by reflexivity.
  assert (Q0 : forall pos, first pos = first 0) by reflexivity.
  unfold but_offset in H. rewrite Q, removelast_last, last_last in H. apply app_inj_tail in H. destruct H as [H1 H2].
  destruct (last outs None) as [[]|] eqn:L; try discriminate. destruct r; try discriminate. exists n. change (outs = None :: None :: left_members (Some h) k n).
  rewrite Q, Q0, <- H1, <- L. apply app_removelast_last. intros ->. discriminate.
Qed.
Lemma free_none : forall W h e, always (sum_handle_free W (Some (Some h)) e) (fun x => snd x = None).
Proof.
  intros W h e. cbn [sum_handle_free].
  repeat first [apply always_bind; intro | apply always_ret; reflexivity | progress cbv zeta |
    match goal with |- always (if ?c then _ else _) _ => destruct c | |- always (match ?c with Some _ => _ | None => _ end) _ => destruct c end].
Qed.

(* ------------------------------------------------------------------ statements *)

Lemma den_then : forall E P call fuel T U st l (K : flow -> locals -> M T) (g : T -> M U) s,
  (x <- @den E P call fuel T st l K ;; g x) s = @den E P call fuel U st l (fun fl l => x <- K fl l ;; g x) s.
Proof. intros. unfold den, bind. destruct (exec E P call fuel st l s); reflexivity. Qed.

Section Statements.
  Variables (E : env) (P : program) (call : string -> list val -> M (val * list (option val))) (fuel : nat) (T : Type).
  Notation dn := (@den E P call fuel T).

  Lemma checked_done : forall c f es l vs z outs s1 l1 X Y K s,
    evs E P call es l s = Done (vs, l) s -> is_external f = false -> call f vs s = Done (VS R32 z, outs) s1 -> copy_out es outs l = Some l1 ->
    dn (SIf (EBin ONe (ECall f es) (EInt c)) X Y) l K s = if negb (z =? c)%Z then dn X l1 K s1 else dn Y l1 K s1.
  Proof.
    intros c f es l vs z outs s1 l1 X Y K s H1 H2 H3 H4.
    rewrite (checked_to _ _ _ _ _ unit) with (m := fun _ => Done tt s1) (g := fun _ => z) (outs := fun _ => outs) (lr := fun _ => l1) (vs := vs);
      [|exact H1|exact H2|exact H3|intros _; exact H4]. unfold bind. now destruct (negb (z =? c)%Z).
  Qed.
  Lemma checked_undef : forall c f es l vs X Y K s,
    evs E P call es l s = Done (vs, l) s -> is_external f = false -> call f vs s = Undef ->
    dn (SIf (EBin ONe (ECall f es) (EInt c)) X Y) l K s = Undef.
  Proof. intros c f es l vs X Y K s H1 H2 H3. rewrite den_if, ev_bin_eq, ev_call_eq. unfold bind. rewrite H1. cbn [fst snd]. now rewrite H2, H3. Qed.

  Lemma called_undef : forall f es l vs K s,
    evs E P call es l s = Done (vs, l) s -> is_external f = false -> call f vs s = Undef -> dn (SExpr (ECall f es)) l K s = Undef.
  Proof. intros f es l vs K s H1 H2 H3. rewrite den_expr, ev_call_eq. unfold bind. rewrite H1. cbn [fst snd]. now rewrite H2, H3. Qed.
  Lemma noted : forall c f es l vs z outs s1 l1 K s,
    evs E P call es l s = Done (vs, l) s -> is_external f = false -> call f vs s = Done (VS R32 z, outs) s1 -> copy_out es outs l = Some l1 ->
    dn (SIf (EBin ONe (ECall f es) (EInt c)) SSkip SSkip) l K s = K FNext l1 s1.
  Proof. intros c f es l vs z outs s1 l1 K s H1 H2 H3 H4. erewrite checked_done by eassumption. rewrite den_skip. now destruct (negb _). Qed.

  (* result = f( ... ); *)
  Lemma result_done : forall f es l vs z outs s1 l1 l2 r0 K s,
    evs E P call es l s = Done (vs, l) s -> is_external f = false -> call f vs s = Done (VS R32 z, outs) s1 -> copy_out es outs l = Some l1 ->
    lget l1 "result" = Some (VS R32 r0) -> lset l1 "result" (VS R32 z) = Some l2 ->
    dn (SAssign (EVar "result") (ECall f es)) l K s = K FNext l2 s1.
  Proof.
    intros f es l vs z outs s1 l1 l2 r0 K s H1 H2 H3 H4 H5 H6.
    rewrite (assigned _ _ _ _ _ unit) with (m := fun _ => Done tt s1) (g := fun _ => VS R32 z) (outs := fun _ => outs) (l1 := fun _ => l1) (lr := fun _ => l2) (vs := vs);
      [reflexivity|exact H1|exact H2|exact H3|intros _; exact H4|]. intros _ s2 _. eapply as_s; [exact H5|apply ts_same|exact H6].
  Qed.
  Lemma result_undef : forall f es l vs K s,
    evs E P call es l s = Done (vs, l) s -> is_external f = false -> call f vs s = Undef ->
    dn (SAssign (EVar "result") (ECall f es)) l K s = Undef.
  Proof. intros f es l vs K s H1 H2 H3. rewrite den_assign, ev_call_eq. unfold bind. rewrite H1. cbn [fst snd]. now rewrite H2, H3. Qed.

  (* if( result == -1 ) and the like *)
  Lemma result_is : forall o z c l X Y K s, lget l "result" = Some (VS R32 z) -> o = OEq \/ o = ONe ->
    dn (SIf (EBin o (EVar "result") (EInt c)) X Y) l K s =
    if (match o with OEq => z =? c | _ => negb (z =? c) end)%Z then dn X l K s else dn Y l K s.
  Proof.
    intros o z c l X Y K s H [-> | ->].
    - apply decided. eapply ev_bin; [eapply ev_var; [exact H|reflexivity]|reflexivity|reflexivity].
    - apply decided. eapply ev_bin; [eapply ev_var; [exact H|reflexivity]|reflexivity|reflexivity].
  Qed.

  Lemma limit : forall l s, eval E P call (ECast false RSz ESsizeMax) l s = Done (VU RSz (ssize_max E), l) s.
  Proof. intros l s. cbn [eval]. unfold bind, ret, ssize_max. cbn [fst snd convert to_unsigned option_map bits]. destruct (plat64 E); reflexivity. Qed.

  Lemma den_once : forall b l K s,
    dn (SSwitch (EInt 0) [([0]%Z, b)]) l K s = dn b l (fun f l' => match f with FBreak => K FNext l' | _ => K f l' end) s.
  Proof.
    intros b l K s. unfold den.
    change (exec E P call fuel (SSwitch (EInt 0) [([0]%Z, b)]) l s) with
      ((r <- (q <- exec E P call fuel b l ;; match fst q with FNext => ret (FNext, snd q) | _ => ret q end) ;;
        match fst r with FBreak => ret (FNext, snd r) | _ => ret r end) s). unfold bind, ret.
    destruct (exec E P call fuel b l s) as [[f l1] s1|]; [|reflexivity]. destruct f; reflexivity.
  Qed.
End Statements.

(* ------------------------------------------------------------------ main *)

Definition start_text : stmt := match f_body text_main with SSeq (SSwitch _ [(_, b)]) _ => b | _ => SSkip end.
Definition end_text : stmt := match f_body text_main with SSeq _ r => r | _ => SSkip end.
Lemma main_body : f_body text_main = (SSwitch (EInt 0) [([0]%Z, start_text)] ;- end_text).
Proof. reflexivity. Qed.

Section Main.
  Variables (E : env) (O : outside) (sg : bool) (fuel : nat) (attach detach : Z) (size types : option ptr) (source : ptr) (out0 : list N).
  Notation P := (main_text sg).
  Notation call := (main_call E O sg fuel attach detach).
  Notation W := (o_input O).

  Definition mf (o : list N) (hp : val) (looks : N) (ms : list val) (r : Z) : locals :=
    [("option_process_buffer_size", v_chars size); ("option_digest_types", v_chars types); ("source", VChars source); ("program", VText "hmacsum");
     ("stdout", VRef (VArr R8 (out0 ++ o) true)); ("error", VErr); ("hmacsum_sum_handle", VRef hp); ("looks", VRef (VU R64 looks))] ++
    combine member_names (map VRef ms) ++ [("result", VS R32 r)].
  Definition hf (o : list N) (h : handle) (looks : N) (k : nat) (pos : N) (r : Z) : locals := mf o (VBytes (h_self h, 0)) looks (members h k pos) r.

  Definition R (x : Z * list N) : M (val * option (list N)) := ret (VS R32 (fst x), Some (out0 ++ snd x)).

  Variable ke : flow -> locals -> M (val * option (list N)).
  Hypothesis Hret : forall z o hp looks ms r s, z = 0%Z \/ z = 1%Z -> ke (FReturn (VS R32 z)) (mf o hp looks ms r) s = R (z, o) s.
  Hypothesis Hnull : forall o looks ms r s, ke FError (mf o VNull looks ms r) s = R (1%Z, o) s.
  Hypothesis Herr : forall o h looks k pos r s, ke FError (hf o h looks k pos r) s = (x <- main_error W (Some h) o ;; R x) s.
  Notation dn := (@den E P call fuel (val * option (list N))).

  Lemma text_end : forall o h looks k pos r s,
    dn end_text (hf o h looks k pos r) ke s = (x <- main_end W (o_signal O) (N.to_nat looks + k) h o ;; R x) s.
  Proof.
    intros o h looks k pos r s. unfold end_text. cbn [f_body text_main]. rewrite den_seq.
    erewrite checked_to with (m := sum_handle_close W (Some h) true) (g := fun r => r) (outs := fun _ => None :: None :: left_members (Some h) k pos)
      (lr := fun _ => hf o h looks k pos r) (vs := v_handle (Some h) :: v_error true :: v_members (Some h) k pos);
      [|sev|reflexivity|exact (run_close E O sg fuel (Some h) true k pos s)|reflexivity].
    unfold main_end. rewrite bind_assoc. apply bind_ext. intros c s1 _.
    destruct (c =? 0)%Z; cbn [negb].
    2:{ apply Herr. }
    rewrite den_skip, den_seq. erewrite noted; [|sev|reflexivity|reflexivity|reflexivity].
    rewrite den_seq.
    destruct (observed _ _ _ _ _ _ _ _ (run_free E O sg fuel (Some (Some h)) true k pos s1)) as [[U1 U2]|(y & s2 & outs & D1 & D2 & D3)].
    { erewrite checked_undef; [|sev|reflexivity|exact U2]. unfold bind. now rewrite U1. }
    apply left_freed in D3. destruct D3 as (ms & -> & L). pose proof (free_none _ _ _ _ _ _ D1) as FN. destruct y as [z q]. cbn [fst snd] in *. subst q.
    assert (Q : exists x1 x2 x3 x4 x5 x6 x7 x8 x9 x10 x11 x12 x13 x14 x15 x16 x17 x18, ms = [x1; x2; x3; x4; x5; x6; x7; x8; x9; x10; x11; x12; x13; x14; x15; x16; x17; x18]).
    { do 18 (destruct ms as [|? ms]; [discriminate|]). destruct ms; [|discriminate]. repeat eexists. }
    destruct Q as (x1 & x2 & x3 & x4 & x5 & x6 & x7 & x8 & x9 & x10 & x11 & x12 & x13 & x14 & x15 & x16 & x17 & x18 & ->).
    cbn [map app] in D2. set (ms := [x1; x2; x3; x4; x5; x6; x7; x8; x9; x10; x11; x12; x13; x14; x15; x16; x17; x18; VU R64 (N.of_nat k); VU R64 pos]) in *.
    erewrite checked_done with (l1 := mf o VNull looks ms r); [|sev|reflexivity|exact D2|reflexivity].
    rewrite bind_assoc. erewrite bind_done by exact D1. cbn [fst snd].
    destruct (z =? 1)%Z; cbn [negb main_error].
    2:{ exact (Hnull o looks ms r s2). }
    rewrite den_skip, den_seq.
    erewrite checked_done with (l1 := mf o VNull (looks + 1) ms r); [|sev|reflexivity|reflexivity|reflexivity]. rewrite Nat2N.id.
    destruct (arrived (o_signal O) (N.to_nat looks + k)); cbn [Z.eqb negb].
    - rewrite den_seq. erewrite called with (m := ret tt) (g := fun _ => 17%Z) (outs := fun _ => [Some (VArr R8 (out0 ++ o ++ literal "hmacsum: ABORTED" ++ [10]) true); None; None])
        (lr := fun _ => mf (o ++ literal "hmacsum: ABORTED" ++ [10]) VNull (looks + 1) ms r);
        [|sev|reflexivity|rewrite app_assoc; reflexivity|reflexivity].
      rewrite bind_ret, den_return_int, Hret by auto. reflexivity.
    - rewrite den_skip, den_return_int, Hret by auto. reflexivity.
  Qed.

  (* ---------------------------------------------------------- before on_abort *)

  Variable kb : flow -> locals -> M (val * option (list N)).
  Hypothesis Hend : forall fl o h looks k pos r s, fl = FBreak \/ fl = FNext ->
    kb fl (hf o h looks k pos r) s = (x <- main_end W (o_signal O) (N.to_nat looks + k) h o ;; R x) s.
  Hypothesis Hgoto : forall l s, kb FError l s = ke FError l s.
  Hypothesis Hlooks : o_looks O = 1%nat.
  Hypothesis Hfuel : forall n, in_size W = Some n -> n < 2 ^ 64 /\ (N.to_nat n <= fuel)%nat.

  Fixpoint drop (n : nat) (st : stmt) : stmt := match n, st with S n, SSeq _ r => drop n r | _, _ => st end.

  (* hmacsum.c:318-341 *)
  Definition processed (h : handle) : M (Z * list N) :=
    x <- sum_handle_process_input E W (o_signal O) 1 (Some h) true ;;
    let '(r, h, k) := x in
    h <- lift h ;;
    if arrived (o_signal O) (1 + k) then main_end W (o_signal O) (2 + k) h []
    else if negb (r =? 1)%Z then main_error W (Some h) []
    else
      x <- sum_handle_hash_values_fprint (Some h) true true ;;
      if negb (fst x =? 1)%Z then main_error W (Some h) (snd x)
      else main_end W (o_signal O) (2 + k) h (snd x).

  Lemma text_processed : forall h r s, dn (drop 7 start_text) (hf [] h 1 0 0 r) kb s = (x <- processed h ;; R x) s.
  Proof.
    intros h r s. unfold start_text. cbn [f_body text_main drop]. rewrite den_seq.
    destruct (observed _ _ _ _ _ _ _ _ (run_process_input E O sg fuel (Some h) true s Hfuel)) as [[U1 U2]|(y & s1 & outs & D1 & D2 & D3)].
    { erewrite result_undef; [|sev|reflexivity|exact U2]. unfold processed, bind. rewrite Hlooks in U1. now rewrite U1. }
    rewrite Hlooks in D1. destruct (process_some _ _ _ _ _ _ _ _ _ D1) as (h1 & Hh & Hs). destruct y as [[z q] k]. cbn [fst snd] in *. subst q.
    apply left_processed in D3. destruct D3 as (pos & ->).
    erewrite result_done with (l1 := hf [] h1 1 k pos r) (l2 := hf [] h1 1 k pos z);
      [|sev|reflexivity|exact D2|unfold hf; rewrite Hs; reflexivity|reflexivity|reflexivity].
    unfold processed. rewrite bind_assoc. erewrite bind_done by exact D1. cbv iota beta.
    rewrite bind_assoc. change (lift (Some h1)) with (ret h1 : M handle). rewrite bind_ret.
    rewrite den_seq. erewrite checked_done with (l1 := hf [] h1 2 k pos z); [|sev|reflexivity|reflexivity|reflexivity].
    rewrite Nat2N.id. change (N.to_nat 1) with 1%nat.
    destruct (arrived (o_signal O) (1 + k)); cbn [Z.eqb negb].
    { exact (Hend FBreak [] h1 2 k pos z s1 (or_introl eq_refl)). }
    rewrite den_skip, den_seq, (result_is _ _ _ _ _ ONe z) by (auto; reflexivity). destruct (negb (z =? 1)%Z).
    { etransitivity; [apply Hgoto|]. apply Herr. }
    rewrite den_skip.
    erewrite checked_to with (m := sum_handle_hash_values_fprint (Some h1) true true) (g := fun x => fst x)
      (outs := fun x => None :: Some (VArr R8 ((out0 ++ []) ++ snd x) true) :: None :: left_members (Some h1) k pos) (lr := fun x => hf (snd x) h1 2 k pos z);
      [|sev|reflexivity|exact (run_fprint E O sg fuel (Some h1) (Some (out0 ++ [])) true k pos s1)|intros x; rewrite app_nil_r; reflexivity].
    rewrite bind_assoc. apply bind_ext. intros x s2 _. destruct (negb (fst x =? 1)%Z).
    - etransitivity; [apply Hgoto|]. apply Herr.
    - rewrite den_skip. exact (Hend FNext (snd x) h1 2 k pos z s2 (or_intror eq_refl)).
  Qed.

  (* hmacsum.c:286-341 *)
  Definition opened (h : handle) : M (Z * list N) :=
    r <- sum_handle_open_input W (Some h) true ;;
    if arrived (o_signal O) 0 then main_end W (o_signal O) 1 h []
    else if negb (r =? 1)%Z then main_error W (Some h) []
    else processed h.

  Lemma text_opened : forall h r s, dn (drop 3 start_text) (hf [] h 0 0 0 r) kb s = (x <- opened h ;; R x) s.
  Proof.
    intros h r s. unfold start_text. cbn [f_body text_main drop]. rewrite den_seq.
    erewrite noted; [|sev|reflexivity|reflexivity|reflexivity]. rewrite den_seq.
    erewrite assigned with (m := sum_handle_open_input W (Some h) true) (g := fun z => VS R32 z) (outs := fun _ => None :: None :: None :: left_members (Some h) 0 0)
      (l1 := fun _ => hf [] h 0 0 0 r) (lr := fun z => hf [] h 0 0 0 z);
      [|sev|reflexivity|exact (run_open_input E O sg fuel (Some h) source true 0 0 s)|reflexivity|intros; eapply as_s; [reflexivity|apply ts_same|reflexivity]].
    unfold opened. rewrite bind_assoc. apply bind_ext. intros z s1 _. rewrite den_seq.
    erewrite checked_done with (l1 := hf [] h 1 0 0 z); [|sev|reflexivity|reflexivity|reflexivity].
    change (N.to_nat 0 + N.to_nat (N.of_nat 0))%nat with 0%nat.
    destruct (arrived (o_signal O) 0); cbn [Z.eqb negb].
    { exact (Hend FBreak [] h 1 0 0 z s1 (or_introl eq_refl)). }
    rewrite den_skip, den_seq, (result_is _ _ _ _ _ ONe z) by (auto; reflexivity). destruct (negb (z =? 1)%Z).
    { etransitivity; [apply Hgoto|]. apply Herr. }
    rewrite den_skip. apply text_processed.
  Qed.

  (* hmacsum.c:271-341 *)
  Definition typed (x : option (list N)) (h : handle) : M (Z * list N) :=
    x <- (match x with
          | None => ret (0%Z, Some h)
          | Some str => sum_handle_set_digest_types E (o_split O) (Some h) str true
          end) ;;
    h <- lift (snd x) ;;
    if (fst x =? -1)%Z then main_error W (Some h) [] else opened h.

  Lemma text_typed : forall x h r s, argument types x s -> short E O fuel x ->
    dn (drop 2 start_text) (hf [] h 0 0 0 r) kb s = (y <- typed (option_map snd x) h ;; R y) s.
  Proof.
    intros x h r s A L. unfold start_text. cbn [f_body text_main drop].
    rewrite den_seq, (given _ _ _ _ _ "option_digest_types" (v_chars types) (match types with None => true | _ => false end)) by (reflexivity || now destruct types).
    unfold typed. destruct types as [p|] eqn:T, x as [(str, t)|]; try contradiction.
    2:{ rewrite den_skip. cbn [option_map]. rewrite !bind_assoc, !bind_ret. cbn [fst snd]. change (lift (Some h)) with (ret h : M handle). rewrite bind_assoc, bind_ret. apply text_opened. }
    destruct A as [A1 A2]. destruct (L str t eq_refl) as [L1 L2]. cbn [option_map snd]. rewrite den_seq.
    erewrite assigned with (m := sum_handle_set_digest_types E (o_split O) (Some h) t true) (g := fun z => VS R32 (fst z)) (outs := fun x => None :: None :: None :: left_members (snd x) 0 0)
      (l1 := fun x => match snd x with Some h1 => mf [] (VBytes (h_self h, 0)) 0 (members h1 0 0) r | None => hf [] h 0 0 0 r end)
      (lr := fun x => match snd x with Some h1 => mf [] (VBytes (h_self h, 0)) 0 (members h1 0 0) (fst x) | None => hf [] h 0 0 0 (fst x) end).
    2:{ unfold hf, mf. rewrite T. sev. }
    2:{ reflexivity. }
    2:{ rewrite T. exact (run_set_digest_types E O sg fuel (Some h) p str t true 0 0 s A1 A2 L1 L2). }
    2:{ intros [z [h1|]]; reflexivity. }
    2:{ intros [z [h1|]] s1 _; (eapply as_s; [reflexivity|apply ts_same|reflexivity]). }
    rewrite bind_assoc. apply bind_ext. intros [z q] s1 D. destruct (types_some _ _ _ _ _ _ _ _ D) as (h1 & Hh & Hs). cbn [fst snd] in *. subst q.
    rewrite <- Hs. fold (hf [] h1 0 0 0 z). rewrite (result_is _ _ _ _ _ OEq z) by (auto; reflexivity).
    rewrite bind_assoc. change (lift (Some h1)) with (ret h1 : M handle). rewrite bind_ret.
    destruct (z =? -1)%Z.
    - etransitivity; [apply Hgoto|]. apply Herr.
    - rewrite den_skip. apply text_opened.
  Qed.

  (* hmacsum.c:245-341 *)
  Definition sized (x : option (list N * N)) (y : option (list N)) (h : handle) : M (Z * list N) :=
    x <- (match x with
          | None => ret (0%Z, h)
          | Some (str, len) =>
              x <- sum_handle_set_process_buffer_size E (o_verbose O) (o_point O) (Some h) str len true ;;
              h <- lift (snd x) ;;
              if (fst x =? -1)%Z then ret ((-1)%Z, h)
              else if (fst x =? 0)%Z || (ssize_max E <? process_buffer_size h) then ret (0%Z, set_buffer_size 32768 h)
              else ret (0%Z, h)
          end) ;;
    if (fst x =? -1)%Z then main_error W (Some (snd x)) [] else typed y (snd x).
  Hypothesis Hpoint : point_or_none (o_point O).

  Lemma view_mem : forall p v s s', mem s' = mem s -> view p s = Done v s -> view p s' = Done v s'.
  Proof.
    intros p v s s' M H. unfold view, get_obj in *. rewrite M. destruct (nth_error (mem s) (fst p)) as [c|]; [|discriminate].
    destruct (live c); [|discriminate]. destruct (content c); try discriminate. destruct (_ <=? _); [|discriminate]. now injection H as ->.
  Qed.
  Lemma argument_mem : forall p x s s', mem s' = mem s -> argument p x s -> argument p x s'.
  Proof. intros [p|] [[str t]|] s s' M H; try exact H. destruct H as [H1 H2]. split; [exact (view_mem _ _ _ _ M H1)|exact H2]. Qed.

  Lemma text_sized : forall x y h r s, argument size x s -> (forall str t, x = Some (str, t) -> N.of_nat (List.length t) < size_mod E) ->
    argument types y s -> short E O fuel y ->
    dn (drop 1 start_text) (hf [] h 0 0 0 r) kb s = (z <- sized (counted x) (option_map snd y) h ;; R z) s.
  Proof.
    intros x y h r s A L AY LY. unfold start_text. cbn [f_body text_main drop].
    rewrite den_seq, (given _ _ _ _ _ "option_process_buffer_size" (v_chars size) (match size with None => true | _ => false end)) by (reflexivity || now destruct size).
    unfold sized. destruct size as [p|] eqn:T, x as [(str, t)|]; try contradiction.
    2:{ rewrite den_skip. cbn [counted option_map]. rewrite !bind_assoc, !bind_ret. cbn [fst snd]. apply text_typed; assumption. }
    destruct A as [A1 A2]. specialize (L str t eq_refl). cbn [counted option_map fst snd]. rewrite den_seq.
    erewrite assigned with (m := sum_handle_set_process_buffer_size E (o_verbose O) (o_point O) (Some h) str (N.of_nat (List.length t)) true)
      (g := fun z => VS R32 (fst z)) (outs := fun x => None :: None :: None :: left_members (snd x) 0 0)
      (l1 := fun x => match snd x with Some h1 => mf [] (VBytes (h_self h, 0)) 0 (members h1 0 0) r | None => hf [] h 0 0 0 r end)
      (lr := fun x => match snd x with Some h1 => mf [] (VBytes (h_self h, 0)) 0 (members h1 0 0) (fst x) | None => hf [] h 0 0 0 (fst x) end).
    2:{ unfold hf, mf. rewrite T. sev. }
    2:{ reflexivity. }
    2:{ rewrite T. exact (run_set_process_buffer_size E O sg fuel (Some h) p str t true 0 0 s A1 A2 L). }
    2:{ intros [z [h1|]]; reflexivity. }
    2:{ intros [z [h1|]] s1 _; (eapply as_s; [reflexivity|apply ts_same|reflexivity]). }
    rewrite !bind_assoc. apply bind_ext. intros [z q] s1 D.
    assert (Me : mem s1 = mem s).
    { destruct (until_zero_inv _ _ A2) as ((rest & ->) & NZ).
      destruct (set_size_ok E (o_verbose O) (o_point O) h t rest true s) as (r' & n & s' & X & Mx & _).
      - destruct (o_point O) as [x|] eqn:PX; [right; exists x; split; [reflexivity|now apply Hpoint]|now left].
      - apply Forall_forall. intros c Hc ->. contradiction.
      - rewrite D in X. injection X as _ _ ->. exact Mx. }
    apply (argument_mem _ _ _ s1 Me) in AY.
    destruct (size_some _ _ _ _ _ _ _ _ _ _ D) as (h1 & Hh & Hs). cbn [fst snd] in *. subst q.
    rewrite <- Hs. fold (hf [] h1 0 0 0 z). rewrite (result_is _ _ _ _ _ OEq z) by (auto; reflexivity).
    rewrite !bind_assoc. change (lift (Some h1)) with (ret h1 : M handle). rewrite bind_ret.
    destruct (z =? -1)%Z.
    { rewrite bind_ret. etransitivity; [apply Hgoto|]. apply Herr. }
    rewrite (decided _ _ _ _ _ _ ((z =? 0)%Z || (ssize_max E <? process_buffer_size h1))).
    2:{ apply ev_or; [eapply ev_bin; [eapply ev_var; reflexivity|reflexivity|reflexivity]|]. intros _.
        eapply ev_bin; [cbn [eval]; reflexivity|apply limit|reflexivity]. }
    destruct (_ || _); rewrite bind_ret; cbn [fst snd].
    - rewrite den_assign. change (eval E P call (EInt 32768) (hf [] h1 0 0 0 z) s1) with (Done (VS R32 32768, hf [] h1 0 0 0 z) s1). cbn [fst snd].
      replace (assign E P call (EOut "sum_handle->process_buffer_size") (VS R32 32768) (hf [] h1 0 0 0 z) s1) with (Done (hf [] (set_buffer_size 32768 h1) 0 0 0 z) s1).
      2:{ symmetry. unfold hf, mf. cbn. destruct (plat64 E); reflexivity. }
      cbv iota. apply (text_typed y (set_buffer_size 32768 h1) z s1 AY LY).
    - rewrite den_skip. apply (text_typed y h1 z s1 AY LY).
  Qed.

  Lemma argument_unchanged : forall p x s s', unchanged s s' -> argument p x s -> argument p x s'.
  Proof.
    intros [p|] [[str t]|] s s' U H; try exact H. destruct H as [H1 H2]. split; [|exact H2]. unfold view, get_obj in *.
    destruct (nth_error (mem s) (fst p)) as [c|] eqn:C; [|discriminate]. rewrite (U _ _ C). destruct (live c); [|discriminate].
    destruct (content c); try discriminate. destruct (_ <=? _); [|discriminate]. now injection H1 as ->.
  Qed.

  Lemma text_start : forall x y junk k pos s, wf_state s -> argument size x s -> (forall str t, x = Some (str, t) -> N.of_nat (List.length t) < size_mod E) ->
    argument types y s -> short E O fuel y ->
    dn start_text (mf [] VNull 0 (members junk k pos) 0) kb s =
    (z <- hmacsum E (o_split O) (o_verbose O) (o_point O) W (o_signal O) (counted x) (option_map snd y) ;; R z) s.
  Proof.
    intros x y junk k pos s WF A L AY LY. unfold start_text. cbn [f_body text_main]. rewrite den_seq.
    destruct (observed _ _ _ _ _ _ _ _ (run_initialize E O sg fuel (Some None) junk k pos true s)) as [[U1 U2]|(q & s1 & outs & D1 & D2 & D3)].
    { erewrite checked_undef; [|sev|reflexivity|exact U2]. unfold hmacsum, bind. now rewrite U1. }
    unfold hmacsum. rewrite bind_assoc. erewrite bind_done by exact D1.
    pose proof (initialize_ok E true s WF) as IN. cbv zeta in IN.
    destruct (alloc_ok E (tries s) && alloc_ok E (S (tries s)) && alloc_ok E (S (S (tries s)))).
    - destruct IN as (h & s2 & D4 & _ & _ & _ & _ & U & _). rewrite D1 in D4. injection D4 as -> ->. cbn [fst snd] in *.
      apply left_handle in D3. subst outs.
      erewrite checked_done with (l1 := hf [] h 0 0 0 0%Z); [|sev|reflexivity|exact D2|reflexivity]. cbn [Z.eqb Pos.eqb negb]. rewrite den_skip.
      apply (text_sized x y h 0%Z s2); try assumption; now apply (argument_unchanged _ _ s).
    - destruct IN as (s2 & D4 & _). rewrite D1 in D4. injection D4 as -> ->. cbn [fst snd] in *. apply left_null in D3. destruct D3 as (ms & -> & Ln).
      erewrite checked_done with (l1 := mf [] VNull 0 ms 0%Z); [|sev|reflexivity|exact D2|].
      2:{ do 20 (destruct ms as [|? ms]; [discriminate|]). destruct ms; [reflexivity|discriminate]. }
      cbn [Z.eqb negb main_error]. etransitivity; [apply Hgoto|]. apply Hnull.
  Qed.
End Main.

Lemma text_of_main : forall E O sg fuel attach detach size types source out junk k pos x y s,
  o_looks O = 1%nat -> wf_state s -> point_or_none (o_point O) ->
  (forall n, in_size (o_input O) = Some n -> n < 2 ^ 64 /\ (N.to_nat n <= fuel)%nat) ->
  argument size x s -> (forall str t, x = Some (str, t) -> N.of_nat (List.length t) < size_mod E) ->
  argument types y s -> short E O fuel y ->
  (z <- run_main E O sg fuel attach detach size types source out junk k pos ;; ret (fst z, on_stdout (snd z))) s =
  (z <- hmacsum E (o_split O) (o_verbose O) (o_point O) (o_input O) (o_signal O) (counted x) (option_map snd y) ;;
   ret (VS R32 (fst z), Some (out ++ snd z))) s.
Proof.
  intros E O sg fuel attach detach size types source out junk k pos x y s HL WF HP HF AX LX AY LY.
  set (L0 := mf size types source out [] VNull 0 (members junk k pos) 0%Z).
  transitivity ((z <- (fun s => @den E (main_text sg) (main_call E O sg fuel attach detach) fuel _ (f_body text_main) L0
            (fun fl l => match fl with
                         | FReturn v => leave E text_main fl l
                         | FBreak => undef
                         | _ => @den E (main_text sg) (main_call E O sg fuel attach detach) fuel _ (f_error text_main) l (leave E text_main)
                         end) s) ;; ret (fst z, on_stdout (snd z))) s).
  { unfold bind at 1. unfold run_main. rewrite run_fun_eq.
    unfold L0, mf. rewrite app_nil_r. reflexivity. }
  rewrite den_then. set (ke := fun fl l => _).
  assert (Hret : forall z o hp looks ms r s, z = 0%Z \/ z = 1%Z -> ke (FReturn (VS R32 z)) (mf size types source out o hp looks ms r) s = R out (z, o) s).
  { intros z o hp looks ms r s1 Hz. unfold ke, bind. erewrite leave_plain; [|reflexivity|destruct Hz as [Q|Q]; rewrite Q; reflexivity].
    destruct Hz as [Q|Q]; rewrite Q; reflexivity. }
  assert (Hn : forall o looks ms r s, ke FError (mf size types source out o VNull looks ms r) s = R out (1%Z, o) s).
  { intros o looks ms r s1. unfold ke. rewrite den_then. unfold text_main at 1. cbn [f_error]. rewrite den_seq.
    rewrite star_given with (v := VNull) (b := true) by reflexivity. rewrite den_skip, den_return_int. apply Hret. auto. }
  assert (He : forall o h looks k pos r s, ke FError (hf size types source out o h looks k pos r) s = (x <- main_error (o_input O) (Some h) o ;; R out x) s).
  { intros o h looks k1 pos1 r s1. unfold ke. rewrite den_then. unfold text_main at 1. cbn [f_error]. rewrite den_seq.
    rewrite star_given with (v := VBytes (h_self h, 0)) (b := false) by reflexivity.
    cbn [main_error]. rewrite bind_assoc.
    destruct (observed _ _ _ _ _ _ _ _ (run_free E O sg fuel (Some (Some h)) false k1 pos1 s1)) as [[U1 U2]|(q & s2 & outs & D1 & D2 & D3)].
    { erewrite called_undef; [|sev|reflexivity|exact U2]. unfold bind. now rewrite U1. }
    apply left_freed in D3. destruct D3 as (ms & -> & Ln).
    erewrite called with (m := fun _ => Done tt s2) (g := fun _ => fst q)
      (outs := fun _ => Some VNull :: None :: map Some (ms ++ [VU R64 (N.of_nat k1); VU R64 pos1])) (lr := fun _ => mf size types source out o VNull looks (ms ++ [VU R64 (N.of_nat k1); VU R64 pos1]) r);
      [|sev|reflexivity|exact D2|].
    2:{ intros _. do 18 (destruct ms as [|? ms]; [discriminate|]). destruct ms; [reflexivity|discriminate]. }
    erewrite bind_done by reflexivity. erewrite bind_done by exact D1. rewrite bind_ret, den_return_int. apply Hret. auto. }
  clearbody ke. rewrite main_body, den_seq, den_once. set (kb := fun f l => _).
  apply (text_start E O sg fuel attach detach size types source out ke Hn He kb); try assumption.
  - intros fl o h looks k1 pos1 r s1 [-> | ->]; apply (text_end E O sg fuel attach detach size types source out ke Hret Hn He).
  - reflexivity.
Qed.

(* what the text of main prints *)
Lemma text_program : forall E O sg fuel attach detach size types source out junk k pos x y s,
  o_looks O = 1%nat -> good_state s -> input_ok (o_input O) -> point_or_none (o_point O) ->
  (forall n, in_size (o_input O) = Some n -> (N.to_nat n <= fuel)%nat) ->
  argument size x s -> (forall str t, x = Some (str, t) -> N.of_nat (List.length t) < size_mod E) ->
  argument types y s -> short E O fuel y ->
  exists code outs printed s', run_main E O sg fuel attach detach size types source out junk k pos s = Done (VS R32 code, outs) s' /\
  on_stdout outs = Some (out ++ printed) /\ good_state s' /\ unchanged s s' /\
  ((exists selected n k, (forall a, selected a = true <-> asked (o_split O) (option_map snd y) a) /\ in_size (o_input O) = Some n /\
      n <= N.of_nat (List.length (in_data (o_input O))) /\ (k <= N.to_nat n)%nat /\ arrived (o_signal O) (1 + k) = false /\
      let text := digest_lines selected (firstn (N.to_nat n) (in_data (o_input O))) in
      (code = 0%Z /\ printed = text /\ arrived (o_signal O) (2 + k) = false) \/
      (code = 1%Z /\ printed = text /\ (in_close (o_input O) = false \/ in_free (o_input O) = false)) \/
      (code = 1%Z /\ printed = text ++ aborted_text /\ arrived (o_signal O) (2 + k) = true)) \/
   (code = 1%Z /\ (printed = [] \/ printed = aborted_text /\ o_signal O <> None) /\
    refusal E (o_split O) (o_point O) (o_input O) (o_signal O) (counted x) (option_map snd y) s s')) /\
  (no_leak s s' \/ some_alloc_failed E s s' \/ exists str segs, option_map snd y = Some str /\ o_split O str = Some segs /\ In None segs).
Proof.
  intros E O sg fuel attach detach size types source out junk k pos x y s HL HG HI HP HF AX LX AY LY.
  assert (SA : size_argument (counted x)).
  { intros str len Q. destruct x as [(str', t)|]; [|discriminate]. injection Q as -> <-. destruct size as [p|]; [|contradiction].
    destruct (until_zero_inv _ _ (proj2 AX)) as ((rest & ->) & NZ). exists t, rest. split; [reflexivity|]. split; [reflexivity|].
    apply Forall_forall. intros c Hc ->. contradiction. }
  destruct (program_result E (o_split O) (o_verbose O) (o_point O) (o_input O) (o_signal O) (counted x) (option_map snd y) s HG HI SA HP)
    as (code & printed & s' & H & G' & U & X & L).
  pose proof (text_of_main E O sg fuel attach detach size types source out junk k pos x y s HL (proj1 (good_wf s) HG) HP) as Q.
  unfold bind in Q. rewrite H in Q. unfold ret in Q. cbn [fst snd] in Q.
  specialize (Q (fun n Hn => conj (proj2 HI n Hn) (HF n Hn)) AX LX AY LY).
  destruct (run_main E O sg fuel attach detach size types source out junk k pos s) as [[v outs] s2|]; [|discriminate]. injection Q as Q1 Q2 Q3. cbn [fst snd] in *. subst v s2.
  exists code, outs, printed, s'. split; [reflexivity|]. split; [exact Q2|]. split; [exact G'|]. split; [exact U|]. split; [|exact L].
  destruct X as [(sel & n & j & S1 & S2 & S3 & S4 & S5 & _ & X)|X]; [left; exists sel, n, j; auto 10|right; exact X].
Qed.
Lemma text_main_good : forall E O sg fuel attach detach size types source out junk k pos x y s,
  o_looks O = 1%nat -> good_state s -> point_or_none (o_point O) ->
  (forall n, in_size (o_input O) = Some n -> n < 2 ^ 64 /\ (N.to_nat n <= fuel)%nat) ->
  argument size x s -> (forall str t, x = Some (str, t) -> N.of_nat (List.length t) < size_mod E) ->
  argument types y s -> short E O fuel y ->
  (z <- run_main E O sg fuel attach detach size types source out junk k pos ;; ret (fst z, on_stdout (snd z))) s =
  (z <- hmacsum E (o_split O) (o_verbose O) (o_point O) (o_input O) (o_signal O) (counted x) (option_map snd y) ;;
   ret (VS R32 (fst z), Some (out ++ snd z))) s.
Proof. intros. apply text_of_main; try assumption. now apply good_wf. Qed.
