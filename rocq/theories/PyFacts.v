(* Proofs about the Python bindings. *)
From Coq Require Import Arith NArith ZArith List Lia Bool.
From Verif Require Import Words Spec Tables Transform Machine Vocab Context Hash WordFacts TransformFacts MachineFacts ContextFacts DigestFacts HashFacts ReprFacts HmacFacts History HistoryFacts LibProofs LibTheorems EvpFacts Py PyVocab.
Import ListNotations.
Open Scope N_scope.
Arguments N.mul : simpl never.
Arguments N.add : simpl never.
Arguments N.sub : simpl never.
Arguments N.pow : simpl never.
Arguments N.to_nat : simpl never.
Arguments N.of_nat : simpl never.
Arguments alg_of : simpl never.
Arguments Z.add : simpl never.

Lemma pbind_done : forall A B (m : PM A) (f : A -> PM B) S a S', m S = PDone a S' -> pbind m f S = f a S'.
Proof. intros. unfold pbind. now rewrite H. Qed.
Lemma inlib_done : forall A (m : M A) S a l, m (lib S) = Done a l -> inlib m S = PDone a (mk_py l (none_refs S) (exn S)).
Proof. intros. unfold inlib. now rewrite H. Qed.
Lemma pbind_assoc : forall A B C (m : PM A) (f : A -> PM B) (g : B -> PM C) S, pbind (pbind m f) g S = pbind m (fun x => pbind (f x) g) S.
Proof. intros. unfold pbind. now destruct (m S). Qed.

(* ------------------------------------------------ memory *)

Record keeps (W : list nat) (s s' : state) : Prop := {
  k_good : good_state s';
  k_same : forall q, ~ In q W -> (q < length (mem s))%nat -> nth_error (mem s') q = nth_error (mem s) q;
  k_len : (length (mem s) <= length (mem s'))%nat;
  k_tries : (tries s <= tries s')%nat;
}.
Lemma keeps_refl : forall W s, good_state s -> keeps W s s.
Proof. intros W s G. constructor; try assumption; reflexivity. Qed.
Lemma keeps_trans : forall W W' s s' s'', keeps W s s' -> keeps W' s' s'' ->
  (forall q, In q W' -> (q < length (mem s))%nat -> In q W) -> keeps W s s''.
Proof.
  intros W W' s s' s'' [G1 S1 L1 T1] [G2 S2 L2 T2] H. constructor; try assumption; try lia.
  intros q Q L. rewrite S2; [now apply S1| |lia]. intros Q'. apply Q. now apply H.
Qed.
Lemma keeps_same_mem : forall W s s' s'', keeps W s s' -> mem s'' = mem s' -> (tries s' <= tries s'')%nat -> keeps W s s''.
Proof.
  intros W s s' s'' [G S1 L T] M1 T1. constructor; rewrite ?M1; try assumption; try lia.
  intros p o H. apply (G p). unfold get_obj in *. now rewrite M1 in H.
Qed.
Lemma keeps_step : forall e W s s', step e W s s' -> keeps W s s'.
Proof. intros e W s s' [G S1 L T K]. now constructor. Qed.
Lemma keeps_set : forall s p o, good_state s -> good_obj o -> keeps [p] s (set_obj p o s).
Proof. intros. eapply keeps_step. apply (step_set false); assumption. Qed.
Lemma keeps_new : forall W k o s, good_state s -> good_obj o -> keeps W s (new_cell k o s).
Proof. intros. eapply keeps_step. apply (step_new false); assumption. Qed.
Lemma keeps_kill : forall s p, good_state s -> keeps [p] s (kill p s).
Proof. intros. eapply keeps_step. apply (step_kill false); assumption. Qed.
Lemma nl_trans : forall W s s' s'' L L', newlive s s' L -> keeps W s' s'' -> newlive s' s'' L' ->
  (forall q, In q L -> ~ In q W -> In q L') ->
  (forall q c, In q W -> (length (mem s) <= q < length (mem s'))%nat -> nth_error (mem s'') q = Some c -> live c = true -> In q L') ->
  newlive s s'' L'.
Proof.
  intros W s s' s'' L L' N1 K N2 H H' q c Q X Lv. destruct (Nat.lt_ge_cases q (length (mem s'))) as [Hq|Hq]; [|now apply (N2 q c)].
  destruct (in_dec Nat.eq_dec q W) as [HW|HW]; [now apply (H' q c)|]. apply H; [|exact HW]. apply (N1 q c); try assumption. rewrite <- (k_same _ _ _ K); assumption.
Qed.
Lemma nl_mem : forall s s' s'' L, newlive s s' L -> mem s'' = mem s' -> newlive s s'' L.
Proof. intros s s' s'' L H M1 q c. rewrite M1. apply H. Qed.

Lemma pop_ok : forall s p o, nth_error (mem s) p = Some (mk_cell true Stack o) -> pop_local p s = Done tt (kill p s).
Proof. intros s p o H. unfold pop_local, kill. rewrite H. reflexivity. Qed.
Lemma set_field_ok : forall s p v v', get_obj s p = Some (OPtr v) -> set_field p v' s = Done tt (set_obj p (OPtr v') s).
Proof. intros s p v v' H. unfold set_field. rewrite H. now rewrite (put_obj_ok _ _ _ _ H). Qed.
Lemma get_field_ok : forall s p v, get_obj s p = Some (OPtr v) -> get_field p s = Done v s.
Proof. intros s p v H. unfold get_field. now rewrite H. Qed.

Section Facts.
  Variable E : env.

  Definition saf (s s' : state) : Prop := some_alloc_failed E s s'.
  Lemma saf_mono : forall s s' t t', (tries t <= tries s)%nat -> (tries s' <= tries t')%nat -> saf s s' -> saf t t'.
  Proof. intros s s' t t' H1 H2 (i & I & A). exists i. split; [lia|exact A]. Qed.

  (* a call that leaves the local array h with the digest d, then makes the bytes object *)
  Lemma finish_ok : forall a h d S, good_state (lib S) -> nth_error (mem (lib S)) h = Some (mk_cell true Stack (OBytes d)) ->
    N.of_nat (length d) = a_hs (alg_of a) -> exn S = None ->
    exists r S', (r <== bytes_result E h a ;; inlib (pop_local h) >>> pret r) S = PDone r S' /\
    keeps [h] (lib S) (lib S') /\ errs (lib S') = errs (lib S) /\ none_refs S' = none_refs S /\
    (exists c, nth_error (mem (lib S')) h = Some c /\ live c = false) /\
    ((exists p, r = RBytes p /\ nth_error (mem (lib S')) p = Some (mk_cell true Heap (OBytes d)) /\ (length (mem (lib S)) <= p)%nat /\
        newlive (lib S) (lib S') [p] /\ exn S' = None) \/
     (r = RNull /\ newlive (lib S) (lib S') [] /\ exn S' = Some X_IOError /\ saf (lib S) (lib S'))).
  Proof.
    intros a h d S G Hh Ld X. set (s := lib S) in *.
    assert (Hl : (h < length (mem s))%nat) by (apply nth_error_Some; congruence).
    assert (B : Forall is_byte d) by (exact (G h _ (get_nth _ _ _ Hh eq_refl))).
    assert (V : new_bytes E h (a_hs (alg_of a)) s = allocate (OBytes d) E s).
    { unfold new_bytes, view, bind. cbn [fst snd]. rewrite (get_nth _ _ _ Hh eq_refl). cbn [content]. rewrite (proj2 (N.leb_le 0 _)) by lia.
      change (N.to_nat 0) with 0%nat. cbn [skipn]. unfold take. rewrite Ld, N.leb_refl, <- Ld, Nnat.Nat2N.id, firstn_all. reflexivity. }
    unfold bytes_result. destruct (alloc_ok E (tries s)) eqn:Al.
    - set (s1 := tick (new_cell Heap (OBytes d) s)).
      assert (V1 : new_bytes E h (a_hs (alg_of a)) s = Done (Some (length (mem s))) s1) by (rewrite V; now apply allocate_ok).
      assert (K1 : keeps [] s s1).
      { apply (keeps_same_mem [] s (new_cell Heap (OBytes d) s)); [now apply keeps_new|reflexivity|cbn; lia]. }
      assert (H1 : nth_error (mem s1) h = Some (mk_cell true Stack (OBytes d))) by (rewrite (k_same _ _ _ K1); [exact Hh|intros []|exact Hl]).
      assert (K2 : keeps [h] s1 (kill h s1)) by (apply keeps_kill; exact (k_good _ _ _ K1)).
      assert (N1 : newlive s s1 [length (mem s)]) by exact (newlive_new Heap (OBytes d) s).
      eexists _, _. split.
      { rewrite pbind_assoc. erewrite pbind_done by (apply inlib_done; exact V1). cbv iota beta. erewrite pbind_done by reflexivity.
        erewrite pbind_done by (apply inlib_done; cbn [lib]; eapply pop_ok; exact H1). reflexivity. }
      cbn [lib none_refs exn]. split; [|split; [|split; [reflexivity|split]]].
      + apply (keeps_trans [h] [h] s s1); [|exact K2|auto]. apply (keeps_trans [h] [] s s1 s1); [|apply keeps_refl; exact (k_good _ _ _ K1)|intros q []].
        destruct K1 as [A1 A2 A3 A4]. constructor; auto.
      + rewrite kill_errs. reflexivity.
      + rewrite (kill_nth_same s1 _ _ H1). eexists. split; reflexivity.
      + left. exists (length (mem s)). split; [reflexivity|]. split.
        { rewrite kill_nth_other by lia. exact (nth_new Heap (OBytes d) s). }
        split; [fold s; lia|]. split; [|exact X].
        apply (nl_trans [h] s s1 (kill h s1) [length (mem s)]); [exact N1|exact K2|apply newlive_kill|intros q Y _; exact Y|].
        intros q c [<-|[]] L; lia.
    - assert (V1 : new_bytes E h (a_hs (alg_of a)) s = Done None (tick s)) by (rewrite V; now apply allocate_no).
      assert (K2 : keeps [h] s (kill h (tick s))).
      { apply (keeps_trans [h] [h] s (tick s)); [|apply keeps_kill; exact G|auto]. apply (keeps_same_mem [h] s s); [now apply keeps_refl|reflexivity|cbn; lia]. }
      eexists _, _. split.
      { rewrite pbind_assoc. erewrite pbind_done by (apply inlib_done; exact V1). cbv iota beta. rewrite pbind_assoc.
        erewrite pbind_done by reflexivity. erewrite pbind_done by reflexivity.
        erewrite pbind_done by (apply inlib_done; cbn [lib]; eapply pop_ok; exact Hh). reflexivity. }
      cbn [lib none_refs exn]. split; [exact K2|]. split; [rewrite kill_errs; reflexivity|]. split; [reflexivity|]. split.
      + rewrite (kill_nth_same (tick s) h _ Hh). eexists. split; reflexivity.
      + right. split; [reflexivity|]. split; [exact (newlive_kill (tick s) h [])|]. split; [reflexivity|].
        exists (tries s). split; [rewrite kill_tries; cbn [tries tick]; fold s; lia|exact Al].
  Qed.
  (* the same when the call failed *)
  Lemma finish_fails : forall h d S, good_state (lib S) -> nth_error (mem (lib S)) h = Some (mk_cell true Stack (OBytes d)) ->
    exists S', (r <== (error_raise X_IOError >>> pret RNull) ;; inlib (pop_local h) >>> pret r) S = PDone RNull S' /\
    keeps [h] (lib S) (lib S') /\ errs (lib S') = [] /\ none_refs S' = none_refs S /\ exn S' = Some X_IOError /\
    (exists c, nth_error (mem (lib S')) h = Some c /\ live c = false) /\ newlive (lib S) (lib S') [].
  Proof.
    intros h d S G Hh. set (s1 := mk_state (mem (lib S)) (tries (lib S)) [] (resid (lib S))).
    eexists. split.
    { rewrite pbind_assoc. erewrite pbind_done by reflexivity. erewrite pbind_done by reflexivity.
      erewrite pbind_done by (apply inlib_done; cbn [lib]; eapply pop_ok; exact Hh). reflexivity. }
    cbn [lib none_refs exn]. fold s1. split; [|split; [|split; [reflexivity|split; [reflexivity|split]]]].
    - apply (keeps_trans [h] [h] _ s1); [apply (keeps_same_mem [h] _ (lib S)); [now apply keeps_refl|reflexivity|reflexivity]|apply keeps_kill; exact G|auto].
    - now rewrite kill_errs.
    - rewrite (kill_nth_same s1 h _ Hh). eexists. split; reflexivity.
    - exact (newlive_kill s1 h []).
  Qed.

  Definition argument_exn (x : pyarg) : option pyexn := match x with ABytes _ _ => None | AOther => Some X_TypeError | AFails => Some X_RuntimeError end.
  Lemma bytes_argument_ok : forall x S, match x with ABytes _ n => n <= ssize_max E | _ => True end ->
    bytes_argument E x S = PDone (match x with ABytes p n => Some (p, n) | _ => None end) (mk_py (lib S) (none_refs S) (argument_exn x)).
  Proof.
    intros [p n| |] S H; try reflexivity. unfold bytes_argument. erewrite pbind_done by reflexivity. cbv iota. erewrite pbind_done by reflexivity.
    destruct (N.ltb_spec (ssize_max E) n); [lia|reflexivity].
  Qed.

  (* what a call of a one-shot function does to the state before it *)
  Lemma unchanged_keeps : forall s s', good_state s -> unchanged s s' -> no_leak s s' -> (tries s <= tries s')%nat -> (length (mem s) <= length (mem s'))%nat ->
    keeps [] s s' /\ newlive s s' [].
  Proof.
    intros s s' G U NL T L. assert (S1 : forall q, (q < length (mem s))%nat -> nth_error (mem s') q = nth_error (mem s) q).
    { intros q Q. destruct (nth_error (mem s) q) as [c|] eqn:X; [now apply U|]. apply nth_error_None in X. lia. }
    split.
    - constructor; auto. intros p o H. destruct (Nat.lt_ge_cases p (length (mem s))) as [Q|Q].
      + apply (G p). unfold get_obj in *. now rewrite S1 in H.
      + exfalso. unfold get_obj in H. destruct (nth_error (mem s') p) as [c|] eqn:X; [|discriminate]. rewrite (NL p c Q X) in H. discriminate.
    - intros q c Q X Lv. rewrite (NL q c Q X) in Lv. discriminate.
  Qed.
  Lemma unchanged_but_keeps : forall s s' h l, good_state s -> nth_error (mem s) h = Some (mk_cell true Stack (OBytes l)) ->
    unchanged_but s s' (h, 0) (N.of_nat (length l)) -> Forall is_byte (bytes_at s' (h, 0) (N.of_nat (length l))) ->
    no_leak s s' -> (tries s <= tries s')%nat -> (length (mem s) <= length (mem s'))%nat ->
    keeps [h] s s' /\ newlive s s' [] /\ nth_error (mem s') h = Some (mk_cell true Stack (OBytes (bytes_at s' (h, 0) (N.of_nat (length l))))).
  Proof.
    intros s s' h l G Hh U B NL T L.
    assert (S1 : forall q, q <> h -> (q < length (mem s))%nat -> nth_error (mem s') q = nth_error (mem s) q).
    { intros q D Q. destruct (nth_error (mem s) q) as [c|] eqn:X; [now apply (proj1 (U q c X))|]. apply nth_error_None in X. lia. }
    destruct (proj2 (U h _ Hh) eq_refl) as (l0 & l' & C & N1 & L1 & _). cbn [content live knd] in *. injection C as <-.
    assert (V : bytes_at s' (h, 0) (N.of_nat (length l)) = l').
    { unfold bytes_at. cbn [fst snd]. unfold get_obj. rewrite N1. cbn [live content]. change (N.to_nat 0) with 0%nat. cbn [skipn]. rewrite Nnat.Nat2N.id, <- L1. apply firstn_all. }
    rewrite V in *. split; [|split; [|exact N1]].
    - constructor; auto.
      + intros p o H. destruct (Nat.eq_dec p h) as [->|D].
        * unfold get_obj in H. rewrite N1 in H. cbn in H. now injection H as <-.
        * destruct (Nat.lt_ge_cases p (length (mem s))) as [Q|Q].
          { apply (G p). unfold get_obj in *. now rewrite S1 in H. }
          { exfalso. unfold get_obj in H. destruct (nth_error (mem s') p) as [c|] eqn:X; [|discriminate]. rewrite (NL p c Q X) in H. discriminate. }
      + intros q D Q. apply S1; [|exact Q]. intros ->. apply D. now left.
    - intros q c Q X Lv. rewrite (NL q c Q X) in Lv. discriminate.
  Qed.

  (* the allocations and the cells of a one-shot call *)
  Lemma calculate_grows : forall a b n h hn e s r s', good_state s -> arg s b n -> arg s h hn ->
    calculate E a b n h hn e s = Done r s' -> (tries s <= tries s')%nat /\ (length (mem s) <= length (mem s'))%nat.
  Proof.
    intros a b n h hn e s r s' G HB HH R. apply good_wf in G.
    destruct (calculate_cases E a b n h hn e s G HB HH) as
      [(Eal & HR)|[(Eal & ks & c & fs & HE & Hfs & HR)|(Eal & HE & bp & hp & l & fs & -> & -> & Hl & Hfs & HR)]];
      rewrite HR in R; injection R as _ <-; cbn [mem tries]; rewrite ?app_length, ?setl_length; lia.
  Qed.
  Lemma hmac_grows : forall a k kn b n h hn e s r s', good_state s -> arg s k kn -> arg s b n -> arg s h hn ->
    calculate_hmac E a k kn b n h hn e s = Done r s' -> (tries s <= tries s')%nat /\ (length (mem s) <= length (mem s'))%nat.
  Proof.
    intros a k kn b n h hn e s r s' G HK HB HH R. apply good_wf in G.
    destruct (hmac_st E a k kn b n h hn e (mem s) (tries s) (errs s) (resid s)) as
      (r0 & old' & news' & khl & t' & ks & fs & HR & HL & Hfs & Ht & HE); try (apply wf_cells; assumption); try (apply argl_eq; assumption).
    rewrite <- st_of in HR. rewrite HR in R. injection R as _ <-. unfold st. cbn [mem tries]. rewrite app_length. lia.
  Qed.

  (* the digest or an exception *)
  Definition gives (W : list nat) (dig : list N) (k : Z) (S : pystate) (r : pyres) (S' : pystate) : Prop :=
    keeps W (lib S) (lib S') /\ errs (lib S') = [] /\
    ((exists p, r = RBytes p /\ nth_error (mem (lib S')) p = Some (mk_cell true Heap (OBytes dig)) /\ (length (mem (lib S)) <= p)%nat /\
        newlive (lib S) (lib S') [p] /\ exn S' = None /\ none_refs S' = (none_refs S + k)%Z) \/
     (r = RNull /\ newlive (lib S) (lib S') [] /\ exn S' = Some X_IOError /\ saf (lib S) (lib S') /\
        (none_refs S' = none_refs S \/ none_refs S' = (none_refs S + k)%Z))).

  Definition shot (s1 : state) (h : nat) (dig : list N) (n : N) (r : Z) (s2 : state) : Prop :=
    no_leak s1 s2 /\ (tries s1 <= tries s2)%nat /\ (length (mem s1) <= length (mem s2))%nat /\
    ((r = 1%Z /\ errs s2 = errs s1 /\ unchanged_but s1 s2 (h, 0) n /\ bytes_at s2 (h, 0) n = dig) \/
     (r = (-1)%Z /\ saf s1 s2 /\ (unchanged s1 s2 \/ unchanged_but s1 s2 (h, 0) n /\ Forall is_byte (bytes_at s2 (h, 0) n)))).

  Lemma shot_gives : forall a (f : nat -> M Z) dig S, good_state (lib S) -> errs (lib S) = [] -> exn S = None ->
    Forall is_byte dig -> N.of_nat (length dig) = a_hs (alg_of a) ->
    (forall j, let s1 := new_cell Stack (OBytes j) (lib S) in length j = N.to_nat (a_hs (alg_of a)) -> good_state s1 ->
       exists r s2, f (length (mem (lib S))) s1 = Done r s2 /\ shot s1 (length (mem (lib S))) dig (a_hs (alg_of a)) r s2) ->
    exists r S', (hash <== inlib (local_hash E a) ;;
                  result <== inlib (f hash) ;;
                  r <== (if negb (result =? 1)%Z then error_raise X_IOError >>> pret RNull
                         else none_ref 1 >>> bytes_result E hash a) ;;
                  inlib (pop_local hash) >>> pret r) S = PDone r S' /\ gives [] dig 1 S r S'.
  Proof.
    intros a f dig S G Er X Bd Ld Hf. set (s := lib S) in *. set (h := length (mem s)) in *.
    set (j := junk_bytes E (length (mem s)) (a_hs (alg_of a))). assert (Lj : length j = N.to_nat (a_hs (alg_of a))) by apply junk_length.
    assert (Bj : Forall is_byte j) by apply junk_byte. set (s1 := new_cell Stack (OBytes j) s).
    assert (K1 : keeps [] s s1) by (now apply keeps_new). pose proof (k_good _ _ _ K1) as G1.
    assert (N1 : newlive s s1 [h]) by exact (newlive_new Stack (OBytes j) s).
    assert (H1 : nth_error (mem s1) h = Some (mk_cell true Stack (OBytes j))) by exact (nth_new Stack (OBytes j) s).
    assert (L1 : (h < length (mem s1))%nat) by (apply nth_error_Some; congruence).
    destruct (Hf j Lj G1) as (r & s2 & R & NL & T2 & L2 & C). fold s1 in R, NL, T2, L2, C.
    assert (P : N.of_nat (length j) = a_hs (alg_of a)) by lia.
    assert (Main : keeps [h] s1 s2 -> newlive s1 s2 [] ->
      forall S3 r3, keeps [h] s2 (lib S3) -> newlive s2 (lib S3) r3 -> (forall q, In q r3 -> (length (mem s2) <= q)%nat) ->
      (exists c, nth_error (mem (lib S3)) h = Some c /\ live c = false) -> keeps [] s (lib S3) /\ newlive s (lib S3) r3).
    { intros K2 N2 S3 r3 K3 N3 F (c & Hc & Dc).
      assert (K02 : keeps [] s s2) by (apply (keeps_trans [] [h] s s1 s2 K1 K2); intros q [<-|[]]; unfold h; lia).
      split; [apply (keeps_trans [] [h] s s2 _ K02 K3); intros q [<-|[]]; unfold h; lia|].
      assert (N02 : newlive s s2 [h]) by (apply (nl_trans [h] s s1 s2 [h] [h] N1 K2); [intros q x Q Y Z; destruct (N2 q x Q Y Z)|auto|intros q x Y _ _ _; exact Y]).
      apply (nl_trans [h] s s2 _ [h] r3 N02 K3 N3); [intros q Y Z; contradiction|].
      intros q x [<-|[]] _ Y Z. congruence. }
    destruct C as [(-> & Es & U & B)|(-> & F & U)].
    - rewrite <- P in U, B. rewrite <- B in Bd. destruct (unchanged_but_keeps s1 s2 h j G1 H1 U Bd NL T2 L2) as (K2 & N2 & H2). rewrite B in *.
      destruct (finish_ok a h dig (mk_py s2 (none_refs S + 1) (exn S)) (k_good _ _ _ K2) H2 Ld X) as (r3 & S3 & R3 & K3 & E3 & NR & D3 & C3). cbn [lib none_refs exn] in *.
      exists r3, S3. split.
      { erewrite pbind_done by (apply inlib_done; reflexivity). cbn [lib none_refs exn]. erewrite pbind_done by (apply inlib_done; exact R).
        cbn [lib none_refs exn]. change (negb (1 =? 1)%Z) with false. cbv iota. rewrite pbind_assoc. erewrite pbind_done by reflexivity. exact R3. }
      destruct C3 as [(p & -> & Hp & Lp & Np & Xp)|(-> & Np & Xp & Fp)].
      + destruct (Main K2 N2 S3 [p] K3 Np) as (K & N0); [intros q [<-|[]]; exact Lp|exact D3|]. split; [exact K|]. split; [rewrite E3, Es; exact Er|].
        left. exists p. repeat split; try assumption. fold s. fold h. lia.
      + destruct (Main K2 N2 S3 [] K3 Np) as (K & N0); [intros q []|exact D3|]. split; [exact K|]. split; [rewrite E3, Es; exact Er|].
        right. split; [reflexivity|]. split; [exact N0|]. split; [exact Xp|]. split; [|now right].
        apply (saf_mono s2 (lib S3)); [fold s; pose proof (k_tries _ _ _ K1); lia|lia|exact Fp].
    - assert (exists d2, keeps [h] s1 s2 /\ newlive s1 s2 [] /\ nth_error (mem s2) h = Some (mk_cell true Stack (OBytes d2))) as (d2 & K2 & N2 & H2).
      { destruct U as [U|(U & B)].
        - destruct (unchanged_keeps s1 s2 G1 U NL T2 L2) as (K2 & N2). exists j. split; [|split; [exact N2|now apply U]].
          destruct K2 as [A1 A2 A3 A4]. constructor; auto.
        - rewrite <- P in U, B. destruct (unchanged_but_keeps s1 s2 h j G1 H1 U B NL T2 L2) as (K2 & N2 & H2). eauto. }
      destruct (finish_fails h d2 (mk_py s2 (none_refs S) (exn S)) (k_good _ _ _ K2) H2) as (S3 & R3 & K3 & E3 & NR & X3 & D3 & Np). cbn [lib none_refs exn] in *.
      exists RNull, S3. split.
      { erewrite pbind_done by (apply inlib_done; reflexivity). cbn [lib none_refs exn]. erewrite pbind_done by (apply inlib_done; exact R).
        cbn [lib none_refs exn]. change (negb (-1 =? 1)%Z) with true. cbv iota. exact R3. }
      destruct (Main K2 N2 S3 [] K3 Np) as (K & N0); [intros q []|exact D3|]. split; [exact K|]. split; [exact E3|].
      right. split; [reflexivity|]. split; [exact N0|]. split; [exact X3|]. split; [|now left].
      apply (saf_mono s1 s2); [fold s; exact (k_tries _ _ _ K1)|exact (k_tries _ _ _ K3)|exact F].
  Qed.

  Lemma arg_new : forall s k o p n, arg s p n -> arg (new_cell k o s) p n.
  Proof.
    intros s k o [p|] n H; [|exact I]. cbn in *. pose proof (accessible_lt _ _ _ H) as L. apply (accessible_same s); [|exact H].
    unfold new_cell. cbn [mem]. now rewrite nth_error_app1.
  Qed.
  Lemma bytes_new : forall s k o p n, accessible s p n -> bytes_at (new_cell k o s) p n = bytes_at s p n.
  Proof.
    intros s k o p n H. pose proof (accessible_lt _ _ _ H) as L. apply bytes_same. unfold new_cell. cbn [mem]. now rewrite nth_error_app1.
  Qed.
  Lemma local_arg : forall s j n, length j = N.to_nat n -> arg (new_cell Stack (OBytes j) s) (Some (length (mem s), 0)) n.
  Proof. intros s j n L. exists j. cbn [fst snd]. rewrite get_new. split; [reflexivity|lia]. Qed.
  Lemma hs_max : forall a, a_hs (alg_of a) <= ssize_max E.
  Proof. intros a. rewrite <- digest_size_eq. unfold ssize_max. destruct (plat64 E), a; discriminate. Qed.

  Lemma calculate_gives : forall a p n S, good_state (lib S) -> errs (lib S) = [] -> accessible (lib S) p n -> n <= ssize_max E ->
    exists r S', py_calculate E a (Some (ABytes p n)) S = PDone r S' /\ gives [] (lib_hash a (bytes_at (lib S) p n)) 1 S r S'.
  Proof.
    intros a p n S G Er A Hn. unfold py_calculate. erewrite pbind_done by (now apply bytes_argument_ok). cbv iota beta. cbn [argument_exn].
    set (S0 := mk_py (lib S) (none_refs S) None). pose proof (hs_max a) as HM.
    apply (shot_gives a (fun hash => calculate E a (Some p) n (Some (hash, 0)) (a_hs (alg_of a)) true) (lib_hash a (bytes_at (lib S) p n)) S0 G Er eq_refl).
    - apply lib_hash_bytes.
    - rewrite lib_hash_length, digest_size_eq. lia.
    - intros j s1 Lj G1. assert (HB : arg s1 (Some p) n) by (apply arg_new; exact A). assert (HH : arg s1 (Some (length (mem (lib S)), 0)) (a_hs (alg_of a))) by (now apply local_arg).
      destruct (calculate_full E a (Some p) n _ (a_hs (alg_of a)) true s1 G1 HB HH) as (r & s2 & R & NL & C). exists r, s2. split; [exact R|].
      destruct (calculate_grows a _ _ _ _ _ _ _ _ G1 HB HH R) as (T & L). split; [exact NL|]. split; [exact T|]. split; [exact L|].
      destruct C as [(-> & Es & _ & _ & bp & hp & X & Y & B & U)|(-> & _ & U & F)].
      + injection X as <-. injection Y as <-. left. rewrite digest_size_eq in *. split; [reflexivity|]. split; [exact Es|]. split; [exact U|]. refine (eq_trans B _). rewrite cdig_lib. f_equal. now apply bytes_new.
      + right. split; [reflexivity|]. split; [|now left]. destruct F as [F|F]; [exact F|]. exfalso. apply F. unfold hash_args. rewrite digest_size_eq. repeat split; try discriminate; try assumption; reflexivity.
  Qed.
  Lemma hmac_gives : forall a kp kn p n S, good_state (lib S) -> errs (lib S) = [] -> accessible (lib S) kp kn -> kn <= ssize_max E ->
    accessible (lib S) p n -> n <= ssize_max E ->
    exists r S', py_calculate_hmac E a (Some (ABytes kp kn, ABytes p n)) S = PDone r S' /\
      gives [] (lib_hmac a (bytes_at (lib S) kp kn) (bytes_at (lib S) p n)) 1 S r S'.
  Proof.
    intros a kp kn p n S G Er AK Hk A Hn. unfold py_calculate_hmac. destruct (N.ltb_spec (ssize_max E) kn) as [Q|_]; [lia|].
    erewrite pbind_done by (now apply bytes_argument_ok). cbv iota beta. cbn [argument_exn].
    set (S0 := mk_py (lib S) (none_refs S) None). pose proof (hs_max a) as HM.
    apply (shot_gives a (fun hash => calculate_hmac E a (Some kp) kn (Some p) n (Some (hash, 0)) (a_hs (alg_of a)) true) (lib_hmac a (bytes_at (lib S) kp kn) (bytes_at (lib S) p n)) S0 G Er eq_refl).
    - apply lib_hash_bytes.
    - unfold lib_hmac, hmac. rewrite lib_hash_length, digest_size_eq. lia.
    - intros j s1 Lj G1. assert (HK : arg s1 (Some kp) kn) by (apply arg_new; exact AK). assert (HB : arg s1 (Some p) n) by (apply arg_new; exact A).
      assert (HH : arg s1 (Some (length (mem (lib S)), 0)) (a_hs (alg_of a))) by (now apply local_arg).
      destruct (hmac_full E a (Some kp) kn (Some p) n _ (a_hs (alg_of a)) true s1 G1 HK HB HH) as (r & s2 & R & NL & _ & C). exists r, s2. split; [exact R|].
      destruct (hmac_grows a _ _ _ _ _ _ _ _ _ _ G1 HK HB HH R) as (T & L). split; [exact NL|]. split; [exact T|]. split; [exact L|].
      destruct C as [(-> & Es & _ & _ & _ & kp' & bp & hp & X0 & X & Y & B & U & _)|(-> & _ & F & U)].
      + injection X0 as <-. injection X as <-. injection Y as <-. left. rewrite digest_size_eq in *. split; [reflexivity|]. split; [exact Es|]. split; [exact U|].
        refine (eq_trans B _). rewrite cmac_lib. f_equal; now apply bytes_new.
      + right. split; [reflexivity|]. split.
        * destruct F as [F|F]; [exact F|]. exfalso. apply F. unfold hmac_args, hash_args. rewrite digest_size_eq. repeat split; try discriminate; try assumption; reflexivity.
        * destruct U as [U|(_ & _ & kp' & bp & hp & X0 & X & Y & U & B)]; [now left|right]. injection Y as <-. rewrite digest_size_eq in *. split; [exact U|].
          refine (eq_ind_r (Forall is_byte) _ B). rewrite inner_lib. apply lib_hash_bytes.
  Qed.

  (* ---------------------------------------------- objects *)

  Definition own (s : state) (a : algid) (p : nat) (fp : list nat) (x : life) : Prop :=
    match x with
    | Gone => False
    | Bare => fp = [p] /\ nth_error (mem s) p = Some (mk_cell true Heap (OPtr None))
    | Has f m => exists q c, fp = [p; q] /\ p <> q /\ nth_error (mem s) p = Some (mk_cell true Heap (OPtr (Some q))) /\
        nth_error (mem s) q = Some (mk_cell true Heap (OCtx a c)) /\ ctx_repr a (start a f) 0 c m
    end.
  Lemma own_same : forall s s' a p fp x, own s a p fp x -> (forall q, In q fp -> nth_error (mem s') q = nth_error (mem s) q) -> own s' a p fp x.
  Proof.
    intros s s' a p fp x O H. destruct x as [| |f m]; cbn in *; [exact O| |].
    - destruct O as (-> & O). split; [reflexivity|]. rewrite H by (now left). exact O.
    - destruct O as (q & c & -> & D & A & B & R). exists q, c. rewrite !H by (cbn; auto). auto.
  Qed.
  Lemma own_lt : forall s a p fp x q, own s a p fp x -> In q fp -> (q < length (mem s))%nat.
  Proof.
    intros s a p fp x q O I. assert (nth_error (mem s) q <> None); [|now apply nth_error_Some].
    destruct x as [| |f m]; cbn in O; [contradiction| |].
    - destruct O as (-> & O). destruct I as [<-|[]]. congruence.
    - destruct O as (q' & c & -> & D & A & B & R). destruct I as [<-|[<-|[]]]; congruence.
  Qed.
  Lemma own_bytes : forall s a p fp x q n, own s a p fp x -> accessible s q n -> ~ In (fst q) fp.
  Proof.
    intros s a p fp x q n O (l & A & _) H. destruct x as [| |f m]; cbn in O; [contradiction| |].
    - destruct O as (-> & O). destruct H as [H|[]]. rewrite <- H, (get_nth _ _ _ O eq_refl) in A. discriminate.
    - destruct O as (q' & c & -> & D & A1 & B & R). destruct H as [H|[H|[]]]; [rewrite <- H, (get_nth _ _ _ A1 eq_refl) in A|rewrite <- H, (get_nth _ _ _ B eq_refl) in A]; discriminate.
  Qed.

  Lemma init_ctx_good : forall a, good_obj (OCtx a (init_ctx a)).
  Proof. intros a. apply good_ctx_wf, init_wf. Qed.

  (* __init__ on an object whose field may hold anything *)
  Lemma init_ok : forall a p v S, good_state (lib S) -> errs (lib S) = [] -> nth_error (mem (lib S)) p = Some (mk_cell true Heap (OPtr v)) ->
    exists r S', py_init E a p S = PDone r S' /\ keeps [p] (lib S) (lib S') /\ errs (lib S') = [] /\ none_refs S' = none_refs S /\
    ((r = 0%Z /\ exn S' = exn S /\ exists q, (length (mem (lib S)) <= q)%nat /\ own (lib S') a p [p; q] (Has true []) /\ newlive (lib S) (lib S') [q]) \/
     (r = (-1)%Z /\ exn S' = Some X_MemoryError /\ own (lib S') a p [p] Bare /\ newlive (lib S) (lib S') [] /\ saf (lib S) (lib S'))).
  Proof.
    intros a p v S G Er Hp. set (s := lib S) in *.
    assert (Lp : (p < length (mem s))%nat) by (apply nth_error_Some; congruence).
    set (s1 := set_obj p (OPtr None) s). assert (H1 : nth_error (mem s1) p = Some (mk_cell true Heap (OPtr None))) by (unfold s1; now rewrite (set_nth_same _ _ _ _ Hp)).
    assert (K1 : keeps [p] s s1) by (now apply keeps_set). pose proof (k_good _ _ _ K1) as G1.
    assert (L1 : length (mem s1) = length (mem s)) by (apply set_obj_length).
    assert (G01 : get_obj s1 p = Some (OPtr None)) by exact (get_nth _ _ _ H1 eq_refl).
    destruct (initialize_full E true a (Some None) true s1) as (r & w & s2 & R & C). cbn [do_initialize] in R.
    destruct C as [(-> & _ & Al & -> & ->)|(-> & F & -> & Ea & M2 & _ & T2)].
    - set (q := length (mem s1)) in *. set (s2 := tick (new_cell Heap (OCtx a (init_ctx a)) s1)) in *.
      assert (K2 : keeps [] s1 s2) by (apply (keeps_same_mem [] s1 (new_cell Heap (OCtx a (init_ctx a)) s1)); [apply keeps_new; [exact G1|apply init_ctx_good]|reflexivity|cbn; lia]).
      assert (H2 : nth_error (mem s2) p = Some (mk_cell true Heap (OPtr None))) by (rewrite (k_same _ _ _ K2); [exact H1|intros []|lia]).
      assert (Hq : nth_error (mem s2) q = Some (mk_cell true Heap (OCtx a (init_ctx a)))) by exact (nth_new Heap (OCtx a (init_ctx a)) s1).
      set (s3 := set_obj p (OPtr (Some q)) s2). assert (K3 : keeps [p] s2 s3) by (apply keeps_set; [exact (k_good _ _ _ K2)|exact I]).
      assert (Pq : p <> q) by (unfold q; lia).
      exists 0%Z, (mk_py s3 (none_refs S) (exn S)). split; [|cbn [lib none_refs exn]; split; [|split; [|split; [reflexivity|left]]]].
      + unfold py_init. erewrite pbind_done by (apply inlib_done; eapply set_field_ok; exact (get_nth _ _ _ Hp eq_refl)). cbn [lib none_refs exn]. fold s1.
        erewrite pbind_done by (apply inlib_done; eapply get_field_ok; exact G01). cbn [lib none_refs exn].
        erewrite pbind_done by (apply inlib_done; exact R). cbn [fst snd]. cbn [lib none_refs exn].
        erewrite pbind_done by (apply inlib_done; eapply set_field_ok; exact (get_nth _ _ _ H2 eq_refl)). reflexivity.
      + apply (keeps_trans [p] [p] s s2 s3); [|exact K3|auto]. apply (keeps_trans [p] [] s s1 s2 K1 K2). intros x [].
      + unfold s3. rewrite set_obj_errs. unfold s2. cbn [errs tick new_cell]. unfold s1. rewrite set_obj_errs. exact Er.
      + split; [reflexivity|]. split; [reflexivity|]. exists q. split; [unfold q; lia|]. split.
        * exists q, (init_ctx a). split; [reflexivity|]. split; [exact Pq|]. split; [unfold s3; now rewrite (set_nth_same _ _ _ _ H2)|]. split; [unfold s3; now rewrite set_nth_other|apply init_repr].
        * assert (N1 : newlive s s1 []) by apply newlive_set.
          assert (N2 : newlive s s2 [q]) by (apply (nl_trans [] s s1 s2 [] [q] N1 K2); [exact (newlive_new Heap _ s1)|intros x []|intros x c []]).
          apply (nl_trans [p] s s2 s3 [q] [q] N2 K3); [apply newlive_set|auto|]. intros x c [<-|[]] Y. fold s in Y. lia.
    - assert (H2 : nth_error (mem s2) p = Some (mk_cell true Heap (OPtr None))) by (rewrite M2; exact H1).
      assert (K2 : keeps [p] s s2) by (apply (keeps_same_mem [p] s s1); [exact K1|exact M2|lia]).
      set (s3 := set_obj p (OPtr None) s2). assert (K3 : keeps [p] s2 s3) by (apply keeps_set; [exact (k_good _ _ _ K2)|exact I]).
      set (s4 := mk_state (mem s3) (tries s3) [] (resid s3)). assert (K03 : keeps [p] s s3) by (apply (keeps_trans [p] [p] s s2 s3 K2 K3); auto).
      exists (-1)%Z, (mk_py s4 (none_refs S) (Some X_MemoryError)). split; [|cbn [lib none_refs exn]; split; [|split; [reflexivity|split; [reflexivity|right]]]].
      + unfold py_init. erewrite pbind_done by (apply inlib_done; eapply set_field_ok; exact (get_nth _ _ _ Hp eq_refl)). cbn [lib none_refs exn]. fold s1.
        erewrite pbind_done by (apply inlib_done; eapply get_field_ok; exact G01). cbn [lib none_refs exn].
        erewrite pbind_done by (apply inlib_done; exact R). cbn [fst snd]. cbn [lib none_refs exn].
        erewrite pbind_done by (apply inlib_done; eapply set_field_ok; exact (get_nth _ _ _ H2 eq_refl)). reflexivity.
      + apply (keeps_same_mem [p] s s3); [exact K03|reflexivity|reflexivity].
      + split; [reflexivity|]. split; [reflexivity|]. split; [split; [reflexivity|]|split].
        * change (mem s4) with (mem s3). unfold s3. now rewrite (set_nth_same _ _ _ _ H2).
        * intros x c Y Z _. exfalso. assert (x < length (mem s4))%nat by (apply nth_error_Some; congruence). change (mem s4) with (mem s3) in *.
          unfold s3 in *. rewrite set_obj_length in *. rewrite M2 in *. fold s in Y. lia.
        * destruct F as [F|[(x & F)|(_ & Al)]]; try discriminate. exists (tries s1). split; [|exact Al].
          change (tries s4) with (tries s3). assert (T3 : tries s3 = tries s2) by (apply set_obj_tries). assert (T1 : tries s1 = tries s) by (apply set_obj_tries). cbn iota in T2. fold s. lia.
  Qed.

  Lemma create_ok : forall a S, good_state (lib S) -> errs (lib S) = [] -> exn S = None ->
    exists r S', py_create E a S = PDone r S' /\ keeps [] (lib S) (lib S') /\ errs (lib S') = [] /\ none_refs S' = none_refs S /\
    ((exists p q, r = Some p /\ exn S' = None /\ (length (mem (lib S)) <= p)%nat /\ (length (mem (lib S)) <= q)%nat /\
        own (lib S') a p [p; q] (Has true []) /\ newlive (lib S) (lib S') [p; q]) \/
     (r = None /\ exn S' = Some X_MemoryError /\ newlive (lib S) (lib S') [] /\ alloc_ok E (tries (lib S)) = false /\ saf (lib S) (lib S')) \/
     (exists p, r = None /\ exn S' = Some X_ValueError /\ newlive (lib S) (lib S') [p] /\
        nth_error (mem (lib S')) p = Some (mk_cell true Heap (OPtr None)) /\ saf (lib S) (lib S'))).
  Proof.
    intros a S G Er X. set (s := lib S) in *. unfold py_create. destruct (alloc_ok E (tries s)) eqn:Al.
    - set (s1 := tick (new_cell Heap (OPtr None) s)). set (p := length (mem s)).
      assert (K1 : keeps [] s s1) by (apply (keeps_same_mem [] s (new_cell Heap (OPtr None) s)); [apply keeps_new; [exact G|exact I]|reflexivity|cbn; lia]).
      assert (H1 : nth_error (mem s1) p = Some (mk_cell true Heap (OPtr None))) by exact (nth_new Heap (OPtr None) s).
      assert (N1 : newlive s s1 [p]) by exact (newlive_new Heap (OPtr None) s).
      assert (L1 : (p < length (mem s1))%nat) by (apply nth_error_Some; congruence).
      destruct (init_ok a p None (mk_py s1 (none_refs S) (exn S)) (k_good _ _ _ K1) Er H1) as (r & S2 & R & K2 & E2 & NR & C). cbn [lib none_refs exn] in *.
      assert (K02 : keeps [] s (lib S2)) by (apply (keeps_trans [] [p] s s1 _ K1 K2); intros q [<-|[]]; unfold p; lia).
      destruct C as [(-> & X2 & q & Lq & O & N2)|(-> & X2 & O & N2 & F)].
      + exists (Some p), S2. split.
        { erewrite pbind_done by (apply inlib_done; now apply allocate_ok). cbv iota beta. fold s1. erewrite pbind_done by exact R. reflexivity. }
        split; [exact K02|]. split; [exact E2|]. split; [exact NR|]. left. exists p, q. split; [reflexivity|]. split; [congruence|]. split; [unfold p; fold s; lia|].
        split; [fold s; unfold p in *; lia|]. split; [exact O|].
        apply (nl_trans [p] s s1 _ [p] [p; q] N1 K2); [intros y c A1 B1 C1; right; exact (N2 y c A1 B1 C1)|intros y [<-|[]] _; now left|intros y c [<-|[]] _ _ _; now left].
      + cbn in O. destruct O as (_ & O). exists None, (mk_py (lib S2) (none_refs S2) (Some X_ValueError)). cbn [lib none_refs exn]. split.
        { erewrite pbind_done by (apply inlib_done; now apply allocate_ok). cbv iota beta. fold s1. erewrite pbind_done by exact R.
          change ((-1 <? 0)%Z) with true. cbv iota. unfold py_free. rewrite pbind_assoc.
          erewrite pbind_done by (apply inlib_done; eapply get_field_ok; exact (get_nth _ _ _ O eq_refl)). reflexivity. }
        split; [exact K02|]. split; [exact E2|]. split; [exact NR|]. right. right. exists p. split; [reflexivity|]. split; [reflexivity|]. split; [|split; [exact O|]].
        * apply (nl_trans [p] s s1 _ [p] [p] N1 K2); [intros y c A1 B1 C1; destruct (N2 y c A1 B1 C1)|auto|auto].
        * apply (saf_mono s1 (lib S2)); [exact (k_tries _ _ _ K1)|lia|exact F].
    - exists None. eexists. split.
      { erewrite pbind_done by (apply inlib_done; now apply allocate_no). cbv iota beta. erewrite pbind_done by reflexivity. reflexivity. }
      cbn [lib none_refs exn]. split; [apply (keeps_same_mem [] s s); [now apply keeps_refl|reflexivity|cbn; fold s; lia]|]. split; [exact Er|]. split; [reflexivity|].
      right. left. split; [reflexivity|]. split; [reflexivity|]. split; [exact (newlive_refl s [])|]. split; [reflexivity|]. exists (tries s). split; [cbn; fold s; lia|exact Al].
  Qed.

  Lemma free_ok : forall a p fp x S, good_state (lib S) -> errs (lib S) = [] -> exn S = None -> own (lib S) a p fp x ->
    exists S', py_free a p S = PDone tt S' /\ keeps fp (lib S) (lib S') /\ errs (lib S') = [] /\ none_refs S' = none_refs S /\ newlive (lib S) (lib S') [] /\
    match x with
    | Has _ _ => exn S' = None /\ forall q c, In q fp -> nth_error (mem (lib S')) q = Some c -> live c = false
    | _ => exn S' = Some X_ValueError /\ lib S' = lib S
    end.
  Proof.
    intros a p fp x S G Er X O. set (s := lib S) in *. destruct x as [| |f m]; cbn in O; [contradiction| |].
    - destruct O as (-> & O). exists (mk_py s (none_refs S) (Some X_ValueError)). cbn [lib none_refs exn]. split.
      { unfold py_free. erewrite pbind_done by (apply inlib_done; eapply get_field_ok; exact (get_nth _ _ _ O eq_refl)). reflexivity. }
      split; [now apply keeps_refl|]. split; [exact Er|]. split; [reflexivity|]. split; [apply newlive_refl|]. split; reflexivity.
    - destruct O as (q & c & -> & D & A & B & R). pose proof (mfree_ok s q _ B) as HM.
      assert (HF : hash_free a (Some (Some q)) true s = Done (1%Z, None) (kill q s)).
      { unfold hash_free, context_free. unfold bind at 1. unfold bind at 1. rewrite HM. reflexivity. }
      set (s1 := kill q s). assert (K1 : keeps [q] s s1) by (now apply keeps_kill).
      assert (H1 : nth_error (mem s1) p = Some (mk_cell true Heap (OPtr (Some q)))) by (unfold s1; rewrite kill_nth_other by congruence; exact A).
      set (s2 := set_obj p (OPtr None) s1). assert (K2 : keeps [p] s1 s2) by (apply keeps_set; [exact (k_good _ _ _ K1)|exact I]).
      assert (H2 : nth_error (mem s2) p = Some (mk_cell true Heap (OPtr None))) by (unfold s2; now rewrite (set_nth_same _ _ _ _ H1)).
      assert (K3 : keeps [p] s2 (kill p s2)) by (apply keeps_kill; exact (k_good _ _ _ K2)).
      exists (mk_py (kill p s2) (none_refs S) (exn S)). cbn [lib none_refs exn]. split.
      { unfold py_free. erewrite pbind_done by (apply inlib_done; eapply get_field_ok; exact (get_nth _ _ _ A eq_refl)). cbv iota beta. cbn [lib none_refs exn].
        erewrite pbind_done by (apply inlib_done; exact HF). cbn [fst snd lib none_refs exn]. fold s1.
        erewrite pbind_done by (apply inlib_done; eapply set_field_ok; exact (get_nth _ _ _ H1 eq_refl)). cbn [lib none_refs exn]. fold s2.
        erewrite pbind_done by reflexivity. cbn [lib none_refs exn]. now apply (inlib_done _ _ (mk_py s2 (none_refs S) (exn S)) tt), (mfree_ok _ _ (OPtr None)). }
      split; [|split; [|split; [reflexivity|split; [|split; [exact X|]]]]].
      + apply (keeps_trans [p; q] [p] s s2 _); [|exact K3|intros y [<-|[]] _; now left]. apply (keeps_trans [p; q] [p] s s1 s2); [|exact K2|intros y [<-|[]] _; now left].
        apply (keeps_trans [p; q] [q] s s s1); [now apply keeps_refl|exact K1|intros y [<-|[]] _; cbn; auto].
      + rewrite kill_errs. unfold s2. rewrite set_obj_errs. unfold s1. rewrite kill_errs. exact Er.
      + intros y cy Y Z _. exfalso. assert (y < length (mem (kill p s2)))%nat by (apply nth_error_Some; congruence). rewrite kill_length in *. unfold s2 in *.
        rewrite set_obj_length in *. unfold s1 in *. rewrite kill_length in *. lia.
      + intros y cy [<-|[<-|[]]] Y.
        * rewrite (kill_nth_same _ _ _ H2) in Y. injection Y as <-. reflexivity.
        * rewrite kill_nth_other in Y by exact D. unfold s2 in Y. rewrite set_nth_other in Y by exact D. unfold s1 in Y. rewrite (kill_nth_same _ _ _ B) in Y. injection Y as <-. reflexivity.
  Qed.

  Lemma frames_keeps : forall W s s' fs, keeps W s s' -> keeps W s (add_frames fs s').
  Proof. intros W s s' fs K. apply (keeps_same_mem W s s'); [exact K|reflexivity|reflexivity]. Qed.

  Lemma update_ok : forall a p fp f m b n S, good_state (lib S) -> errs (lib S) = [] -> own (lib S) a p fp (Has f m) ->
    accessible (lib S) b n -> n <= ssize_max E ->
    exists S', py_update E a p (Some (ABytes b n)) S = PDone RNone S' /\ keeps fp (lib S) (lib S') /\ errs (lib S') = [] /\
    none_refs S' = (none_refs S + 1)%Z /\ exn S' = None /\ newlive (lib S) (lib S') [] /\ own (lib S') a p fp (Has f (m ++ bytes_at (lib S) b n)).
  Proof.
    intros a p fp f m b n S G Er O A Hn. set (s := lib S) in *. cbn in O. destruct O as (q & c & -> & D & Hp & Hq & Rp).
    assert (Gq : get_obj s q = Some (OCtx a c)) by exact (get_nth _ _ _ Hq eq_refl).
    destruct (update_full E true a (Some q) (Some b) n true s G) as (r & s1 & R & C); [now exists c|exact A|]. cbn [do_update] in R.
    destruct C as [(-> & _ & q' & bp & c' & fs & Y & Z & Gc & _ & ->)|(-> & [F|[F|F]] & _)]; [|discriminate|discriminate|lia].
    injection Y as <-. injection Z as <-. rewrite Gq in Gc. injection Gc as <-. set (c1 := update_fn a c (bytes_at s b n)) in *.
    assert (RP : ctx_repr a (start a f) 0 c1 (m ++ bytes_at s b n)) by (apply update_repr; [exact Rp|now apply bytes_bytes]).
    set (s1 := add_frames fs (set_obj q (OCtx a c1) s)) in *.
    exists (mk_py s1 (none_refs S + 1) None). cbn [lib none_refs exn]. split.
    { unfold py_update. erewrite pbind_done by (now apply bytes_argument_ok). cbv iota beta. cbn [argument_exn].
      erewrite pbind_done by (apply inlib_done; eapply get_field_ok; exact (get_nth _ _ _ Hp eq_refl)). cbn [lib none_refs exn].
      erewrite pbind_done by (apply inlib_done; exact R). reflexivity. }
    split; [|split; [|split; [reflexivity|split; [reflexivity|split]]]].
    - apply frames_keeps. apply (keeps_trans [p; q] [q] s s); [now apply keeps_refl|apply keeps_set; [exact G|]|intros y [<-|[]] _; cbn; auto].
      apply good_ctx_wf. exact (re_wf _ _ _ _ _ RP).
    - unfold s1. cbn [errs add_frames]. rewrite set_obj_errs. exact Er.
    - exact (newlive_set s q _ []).
    - exists q, c1. split; [reflexivity|]. split; [exact D|]. unfold s1. cbn [mem add_frames]. rewrite set_nth_other by congruence. split; [exact Hp|].
      rewrite (set_nth_same _ _ _ _ Hq). split; [reflexivity|exact RP].
  Qed.
  Lemma update_bare : forall a p b n S, errs (lib S) = [] -> own (lib S) a p [p] Bare -> good_state (lib S) ->
    accessible (lib S) b n -> n <= ssize_max E ->
    exists S', py_update E a p (Some (ABytes b n)) S = PDone RNull S' /\ mem (lib S') = mem (lib S) /\ tries (lib S') = tries (lib S) /\ errs (lib S') = [] /\
    none_refs S' = none_refs S /\ exn S' = Some X_IOError.
  Proof.
    intros a p b n S Er O G A Hn. cbn in O. destruct O as (_ & Hp).
    destruct (update_full E true a None (Some b) n true (lib S) G) as (r & s1 & R & C); [exact I|exact A|]. cbn [do_update] in R.
    destruct C as [(_ & _ & q' & _ & _ & _ & F & _)|(-> & _ & _ & M1 & T1 & _)]; [discriminate|].
    eexists. split.
    { unfold py_update. erewrite pbind_done by (now apply bytes_argument_ok). cbv iota beta. cbn [argument_exn].
      erewrite pbind_done by (apply inlib_done; eapply get_field_ok; exact (get_nth _ _ _ Hp eq_refl)). cbn [lib none_refs exn].
      erewrite pbind_done by (apply inlib_done; exact R). reflexivity. }
    cbn [lib none_refs exn mem tries errs]. auto.
  Qed.

  Lemma digest_life : forall a f c m, ctx_repr a (start a f) 0 c m -> digest_fn a c = life_digest a f m.
  Proof.
    intros a f c m R. rewrite (digest_repr _ _ _ _ _ R). destruct f; cbn [start life_digest]; [exact (cdig_lib a m)|exact (cstale_zero a m)].
  Qed.

  Lemma finalize_ok : forall a p fp f m S, good_state (lib S) -> errs (lib S) = [] -> exn S = None -> own (lib S) a p fp (Has f m) ->
    exists r S', py_finalize E a p S = PDone r S' /\ gives fp (life_digest a f m) 0 S r S' /\ own (lib S') a p fp (Has false []).
  Proof.
    intros a p fp f m S G Er X O. set (s := lib S) in *. cbn in O. destruct O as (q & c & -> & D & Hp & Hq & Rp).
    set (h := length (mem s)). assert (Lp : (p < h)%nat) by (apply nth_error_Some; congruence). assert (Lq : (q < h)%nat) by (apply nth_error_Some; congruence).
    set (j := junk_bytes E (length (mem s)) (a_hs (alg_of a))). assert (Lj : length j = N.to_nat (a_hs (alg_of a))) by apply junk_length.
    assert (Bj : Forall is_byte j) by apply junk_byte. set (s1 := new_cell Stack (OBytes j) s).
    assert (K1 : keeps [] s s1) by (now apply keeps_new). pose proof (k_good _ _ _ K1) as G1.
    assert (N1 : newlive s s1 [h]) by exact (newlive_new Stack (OBytes j) s).
    assert (H1 : nth_error (mem s1) h = Some (mk_cell true Stack (OBytes j))) by exact (nth_new Stack (OBytes j) s).
    assert (Hp1 : nth_error (mem s1) p = Some (mk_cell true Heap (OPtr (Some q)))) by (rewrite (k_same _ _ _ K1); [exact Hp|intros []|exact Lp]).
    assert (Hq1 : nth_error (mem s1) q = Some (mk_cell true Heap (OCtx a c))) by (rewrite (k_same _ _ _ K1); [exact Hq|intros []|exact Lq]).
    assert (Gq : get_obj s1 q = Some (OCtx a c)) by exact (get_nth _ _ _ Hq1 eq_refl).
    assert (HH : arg s1 (Some (h, 0)) (a_hs (alg_of a))) by (now apply local_arg).
    destruct (finalize_full E true a (Some q) (Some (h, 0)) (a_hs (alg_of a)) true s1 G1) as (r & s2 & R & C); [now exists c|exact HH|]. cbn [do_finalize] in R.
    pose proof (hs_max a) as HM.
    destruct C as [(-> & _ & q' & hp & c' & l & fr & Y & Z & Gc & Gl & _ & _ & ->)|(-> & [F|[F|[F|F]]] & _)]; [|discriminate|discriminate|rewrite digest_size_eq in F; lia|lia].
    injection Y as <-. injection Z as <-. cbn [fst snd] in *. rewrite Gq in Gc. injection Gc as <-. rewrite (get_nth _ _ _ H1 eq_refl) in Gl. injection Gl as <-.
    set (d := life_digest a f m). assert (Ed : digest_fn a c = d) by (now apply digest_life). rewrite Ed in R.
    assert (Ld : length d = N.to_nat (a_hs (alg_of a))).
    { rewrite <- Ed, (digest_repr _ _ _ _ _ Rp). apply code_hash_length, start_ok. }
    assert (Bd : Forall is_byte d) by (rewrite <- Ed, (digest_repr _ _ _ _ _ Rp); apply code_hash_bytes).
    assert (Pt : put j 0 d = d).
    { unfold put. change (N.to_nat 0) with 0%nat. cbn [firstn app Nat.add]. rewrite skipn_all2 by lia. apply app_nil_r. }
    rewrite Pt in R. set (s2 := set_obj h (OBytes d) s1) in *. set (s3 := set_obj q (OCtx a (zero_ctx (alg_of a))) s2) in *.
    assert (K2 : keeps [h] s1 s2) by (now apply keeps_set). assert (K3 : keeps [q] s2 s3).
    { apply keeps_set; [exact (k_good _ _ _ K2)|]. apply good_ctx_wf, zero_wf. }
    assert (Hh3 : nth_error (mem s3) h = Some (mk_cell true Stack (OBytes d))).
    { unfold s3. rewrite set_nth_other by lia. unfold s2. now rewrite (set_nth_same _ _ _ _ H1). }
    assert (Hp3 : nth_error (mem s3) p = Some (mk_cell true Heap (OPtr (Some q)))).
    { unfold s3. rewrite set_nth_other by congruence. unfold s2. rewrite set_nth_other by lia. exact Hp1. }
    assert (Hq3 : nth_error (mem s3) q = Some (mk_cell true Heap (OCtx a (zero_ctx (alg_of a))))).
    { unfold s3. assert (Hq2 : nth_error (mem s2) q = Some (mk_cell true Heap (OCtx a c))) by (unfold s2; rewrite set_nth_other by lia; exact Hq1). now rewrite (set_nth_same _ _ _ _ Hq2). }
    set (s4 := add_frames [fr] s3) in *.
    assert (Ld' : N.of_nat (length d) = a_hs (alg_of a)) by lia.
    destruct (finish_ok a h d (mk_py s4 (none_refs S) (exn S)) (k_good _ _ _ K3) Hh3 Ld' X) as (r5 & S5 & R5 & K5 & E5 & NR & (ch & Hc & Dc) & C5). cbn [lib none_refs exn] in *.
    assert (L13 : length (mem s4) = length (mem s1)) by (change (mem s4) with (mem s3); unfold s3, s2; now rewrite !set_obj_length).
    assert (L1 : length (mem s1) = Datatypes.S h) by (unfold s1, new_cell; cbn [mem]; rewrite app_length; cbn; unfold h; lia).
    assert (K04 : keeps [p; q] s s4).
    { apply frames_keeps. apply (keeps_trans [p; q] [q] s s2 s3); [|exact K3|intros y [<-|[]] _; cbn; auto].
      apply (keeps_trans [p; q] [h] s s1 s2); [|exact K2|intros y [<-|[]] Y; fold h in Y; lia]. destruct K1 as [A1 A2 A3 A4]. constructor; auto. }
    assert (K05 : keeps [p; q] s (lib S5)) by (apply (keeps_trans [p; q] [h] s s4 _ K04 K5); intros y [<-|[]] Y; fold h in Y; lia).
    assert (N04 : newlive s s4 [h]).
    { intros y cy Y Z _. left. assert (y < length (mem s4))%nat by (apply nth_error_Some; congruence). fold h in Y. lia. }
    assert (N05 : forall L, newlive s4 (lib S5) L -> newlive s (lib S5) L).
    { intros L NL. apply (nl_trans [h] s s4 _ [h] L N04 K5 NL); [intros y Y Z; contradiction|]. intros y cy [<-|[]] _ Z Lv. congruence. }
    exists r5, S5. split; [|split; [split; [exact K05|split]|]].
    - unfold py_finalize. erewrite pbind_done by (apply inlib_done; reflexivity). cbn [lib none_refs exn].
      erewrite pbind_done by (apply inlib_done; eapply get_field_ok; exact (get_nth _ _ _ Hp1 eq_refl)). cbn [lib none_refs exn].
      erewrite pbind_done by (apply inlib_done; exact R). cbn [lib none_refs exn]. change (negb (1 =? 1)%Z) with false. cbv iota. exact R5.
    - rewrite E5. unfold s4, s3, s2. cbn [errs add_frames]. rewrite !set_obj_errs. exact Er.
    - destruct C5 as [(y & -> & Hy & Ly & Ny & Xy)|(-> & Ny & Xy & Fy)].
      + left. exists y. split; [reflexivity|]. split; [exact Hy|]. split; [fold s; fold h; lia|]. split; [now apply N05|]. split; [exact Xy|lia].
      + right. split; [reflexivity|]. split; [now apply N05|]. split; [exact Xy|]. split; [|left; lia].
        apply (saf_mono s4 (lib S5)); [exact (k_tries _ _ _ K04)|lia|exact Fy].
    - exists q, (zero_ctx (alg_of a)). split; [reflexivity|]. split; [exact D|].
      rewrite !(k_same _ _ _ K5); [split; [exact Hp3|]; split; [exact Hq3|]; exact (zero_repr a)| | | |];
        try (change (mem s4) with (mem s3) in L13; change (mem s4) with (mem s3); lia); intros [Y|[]]; lia.
  Qed.
  Lemma finalize_bare : forall a p S, good_state (lib S) -> own (lib S) a p [p] Bare ->
    exists S', py_finalize E a p S = PDone RNull S' /\ keeps [] (lib S) (lib S') /\ errs (lib S') = [] /\ none_refs S' = none_refs S /\
    exn S' = Some X_IOError /\ newlive (lib S) (lib S') [].
  Proof.
    intros a p S G O. set (s := lib S) in *. cbn in O. destruct O as (_ & Hp).
    set (h := length (mem s)). assert (Lp : (p < h)%nat) by (apply nth_error_Some; congruence).
    set (j := junk_bytes E (length (mem s)) (a_hs (alg_of a))). assert (Lj : length j = N.to_nat (a_hs (alg_of a))) by apply junk_length.
    assert (Bj : Forall is_byte j) by apply junk_byte. set (s1 := new_cell Stack (OBytes j) s).
    assert (K1 : keeps [] s s1) by (now apply keeps_new). pose proof (k_good _ _ _ K1) as G1.
    assert (N1 : newlive s s1 [h]) by exact (newlive_new Stack (OBytes j) s).
    assert (H1 : nth_error (mem s1) h = Some (mk_cell true Stack (OBytes j))) by exact (nth_new Stack (OBytes j) s).
    assert (Hp1 : nth_error (mem s1) p = Some (mk_cell true Heap (OPtr None))) by (rewrite (k_same _ _ _ K1); [exact Hp|intros []|exact Lp]).
    assert (HH : arg s1 (Some (h, 0)) (a_hs (alg_of a))) by (now apply local_arg).
    destruct (finalize_full E true a None (Some (h, 0)) (a_hs (alg_of a)) true s1 G1) as (r & s2 & R & C); [exact I|exact HH|]. cbn [do_finalize] in R.
    destruct C as [(_ & _ & q' & hp & c' & l & fr & Y & _)|(-> & _ & _ & M2 & T2 & _)]; [discriminate|].
    assert (K2 : keeps [] s s2) by (apply (keeps_same_mem [] s s1); [exact K1|exact M2|lia]).
    assert (H2 : nth_error (mem s2) h = Some (mk_cell true Stack (OBytes j))) by (rewrite M2; exact H1).
    destruct (finish_fails h j (mk_py s2 (none_refs S) (exn S)) (k_good _ _ _ K2) H2) as (S3 & R3 & K3 & E3 & NR & X3 & (ch & Hc & Dc) & Np). cbn [lib none_refs exn] in *.
    exists S3. split; [|split; [|split; [exact E3|split; [exact NR|split; [exact X3|]]]]].
    - unfold py_finalize. erewrite pbind_done by (apply inlib_done; reflexivity). cbn [lib none_refs exn].
      erewrite pbind_done by (apply inlib_done; eapply get_field_ok; exact (get_nth _ _ _ Hp1 eq_refl)). cbn [lib none_refs exn].
      erewrite pbind_done by (apply inlib_done; exact R). cbn [lib none_refs exn]. change (negb (-1 =? 1)%Z) with true. cbv iota. exact R3.
    - apply (keeps_trans [] [h] s s2 _ K2 K3). intros y [<-|[]]. unfold h. lia.
    - assert (N2 : newlive s s2 [h]) by (intros y cy; rewrite M2; apply N1).
      apply (nl_trans [h] s s2 _ [h] [] N2 K3 Np); [intros y Y Z; contradiction|]. intros y cy [<-|[]] _ Z Lv. congruence.
  Qed.
End Facts.
