(* Proofs of the statements of PropEvp.v. *)
From Coq Require Import Arith NArith ZArith List Lia Bool.
From Verif Require Import Words Spec Tables Transform Machine Vocab Context Hash WordFacts TransformFacts MachineFacts ContextFacts HashFacts ReprFacts HmacFacts LibProofs LibTheorems Demo Evp EvpVocab EvpFacts.
Import ListNotations.
Open Scope N_scope.
Arguments spec_hash : simpl never.

Lemma spec_hash_bytes : forall a m, Forall is_byte (spec_hash a m).
Proof.
  assert (C : forall n l, Forall is_byte (concat (map (be_bytes n) l))).
  { intros n l. induction l; [constructor|]. cbn [map concat]. apply Forall_app. split; [apply be_bytes_bytes|exact IHl]. }
  intros a m. destruct a; unfold spec_hash.
  - unfold md5. destruct (iterate md5_compress _ _ _) as [[[x y] z] w]. repeat (apply Forall_app; split; [apply le_bytes_bytes|]). apply le_bytes_bytes.
  - unfold sha1. destruct (iterate sha1_compress _ _ _) as [[[[x y] z] w] u]. apply C.
  - apply C.
  - apply C.
  - apply C.
Qed.

(* what small_provider and its kin keep *)
Definition keeps (c m : list N) : Prop := c = m /\ Forall is_byte m.
Lemma mod_bytes : forall l, Forall is_byte l -> map (fun x => x mod 256) l = l.
Proof. induction 1 as [|x l X H IH]; [reflexivity|]. cbn [map]. rewrite IH. f_equal. now apply N.mod_small. Qed.
Lemma map_mod_bytes : forall l, Forall is_byte (map (fun x => x mod 256) l).
Proof. intros l. apply Forall_forall. intros x X. apply in_map_iff in X. destruct X as (y & <- & _). apply N.mod_lt. discriminate. Qed.

Lemma simple_honours : forall a (f : list N -> bool) (k : Z),
  honours (mk_provider (fun _ _ => (1%Z, [])) (fun _ _ c d => (1%Z, map (fun x => x mod 256) (c ++ d)))
    (fun a _ c => if f c then (0%Z, [], []) else (1%Z, spec_hash a c, [])) (fun _ _ => k)) a keeps.
Proof.
  intros a f k. constructor; cbn [p_init p_update p_final p_cleanup fst snd].
  - intros s c H. injection H as <-. now split.
  - intros s c m d c' (-> & M) D H. injection H as <-. assert (F : Forall is_byte (m ++ d)) by (apply Forall_app; now split). split; [now apply mod_bytes|exact F].
  - intros s c m d c' (-> & M) H. destruct (f m); [discriminate|]. now injection H as <- <-.
  - constructor.
  - intros. apply map_mod_bytes.
  - intros s c. destruct (f c); cbn [fst snd]; [split; constructor|split; [constructor|apply spec_hash_bytes]].
  - intros s c. destruct (f c); cbn [fst snd length]; [apply N.le_0_l|]. rewrite spec_length. apply N.le_refl.
Qed.

Lemma plain_honours : forall a, honours plain_provider a keeps.
Proof. intros a. exact (simple_honours a (fun _ => false) 1%Z). Qed.
Lemma messy_honours : forall a, honours messy_provider a keeps.
Proof. intros a. exact (simple_honours a (fun _ => false) 0%Z). Qed.
Lemma small_honours : forall n a, honours (small_provider n) a keeps.
Proof. intros n a. exact (simple_honours a (fun c => Nat.ltb n (length c)) 1%Z). Qed.
Lemma plain_reliable : forall a, reliable plain_provider a.
Proof. intros a s. split; [reflexivity|]. split; [reflexivity|]. intros c. split; reflexivity. Qed.

(* ------------------------------------------------ success *)

Lemma evp_calculate_succeeds : forall E P v a holds e buffer size hash n s, honours P a holds -> reliable P a -> (forall i, alloc_ok E i = true) ->
  good_state s -> arg s buffer size -> arg s hash n -> evp_hash_args E v a buffer size hash n ->
  exists s' bp hp, calculate_with (evp E P v a) a buffer size hash n e s = Done 1%Z s' /\ errs s' = errs s /\ buffer = Some bp /\ hash = Some hp /\
  bytes_at s' hp (digest_size a) = spec_hash a (bytes_at s bp size).
Proof.
  intros E P v a holds e buffer size hash n s HP R A G HB HH HA.
  destruct (evp_calculate E P v a holds HP e buffer size hash n s G HB HH) as (r & s' & U & _ & _ & _ & [(-> & _ & Er & bp & hp & Hb & Hh & D)|(_ & _ & [(i & _ & X)|[X|X]])]).
  - exists s', bp, hp. split; [exact U|]. split; [now apply Er|]. now repeat split.
  - rewrite A in X. discriminate.
  - contradiction.
  - contradiction.
Qed.
Lemma evp_hmac_succeeds : forall E P v a holds e key key_size buffer size hash n s, honours P a holds -> reliable P a -> (forall i, alloc_ok E i = true) ->
  good_state s -> arg s key key_size -> arg s buffer size -> arg s hash n -> evp_hmac_args E v a key key_size buffer size hash n ->
  exists s' kp bp hp, calculate_hmac_with E (evp E P v a) a key key_size buffer size hash n e s = Done 1%Z s' /\ errs s' = errs s /\
  key = Some kp /\ buffer = Some bp /\ hash = Some hp /\
  bytes_at s' hp (digest_size a) = spec_hmac a (bytes_at s kp key_size) (bytes_at s bp size).
Proof.
  intros E P v a holds e key key_size buffer size hash n s HP R A G HK HB HH HA.
  destruct (evp_hmac E P v a holds HP e key key_size buffer size hash n s G HK HB HH) as (r & s' & U & _ & _ & _ & [(-> & _ & Er & kp & bp & hp & Hk & Hb & Hh & D)|(_ & _ & [(i & _ & X)|[X|X]])]).
  - exists s', kp, bp, hp. split; [exact U|]. split; [now apply Er|]. now repeat split.
  - rewrite A in X. discriminate.
  - contradiction.
  - contradiction.
Qed.

(* ------------------------------------------------ the same memory as the built-in functions leave *)

Lemma nth_ext : forall A (l l' : list A), (forall i, nth_error l i = nth_error l' i) -> l = l'.
Proof.
  induction l as [|x l IH]; intros [|y l'] H; [reflexivity|specialize (H 0%nat); discriminate H|specialize (H 0%nat); discriminate H|].
  pose proof (H 0%nat) as H0. cbn in H0. injection H0 as ->. f_equal. apply IH. intros i. exact (H (S i)).
Qed.
Lemma two_outputs : forall s s1 s2 h n, accessible s h n -> unchanged_but s s1 h n -> unchanged_but s s2 h n -> bytes_at s1 h n = bytes_at s2 h n -> same_cells s s1 s2.
Proof.
  intros s s1 s2 h n (l & A & L) U1 U2 B q Q. destruct (nth_error (mem s) q) as [c|] eqn:C; [|apply nth_error_None in C; lia].
  destruct (U1 q c C) as (V1 & W1). destruct (U2 q c C) as (V2 & W2). destruct (Nat.eq_dec q (fst h)) as [->|D]; [|now rewrite V1, V2].
  destruct (W1 eq_refl) as (l0 & l1 & X1 & Y1 & Z1 & N1). destruct (W2 eq_refl) as (l0' & l2 & X2 & Y2 & Z2 & N2).
  assert (l0' = l0) by congruence. subst l0'. rewrite Y1, Y2. do 3 f_equal.
  unfold get_obj in A. rewrite C in A. destruct (live c) eqn:Lv; [|discriminate]. injection A as A. assert (l0 = l) by congruence. subst l0.
  unfold bytes_at, get_obj in B. rewrite Y1, Y2 in B. cbn [live content] in B. apply nth_ext. intros i.
  destruct (N.lt_ge_cases (N.of_nat i) (snd h)) as [I|I]; [rewrite N1, N2 by (now left); reflexivity|].
  destruct (N.lt_ge_cases (N.of_nat i) (snd h + n)) as [J|J]; [|rewrite N1, N2 by (now right); reflexivity].
  assert (F : forall (m : list N), (N.of_nat i - snd h < n) -> nth_error (firstn (N.to_nat n) (skipn (N.to_nat (snd h)) m)) (i - N.to_nat (snd h)) = nth_error m i).
  { intros m Hi. assert (Y : forall (x : list N) j k, (j < k)%nat -> nth_error (firstn k x) j = nth_error x j).
    { clear. induction x as [|y x IH]; intros [|j] [|k] H; try lia; cbn; try reflexivity. apply IH. lia. }
    rewrite Y by lia. rewrite nth_error_skipn'. f_equal. lia. }
  rewrite <- (F l1) by lia. rewrite <- (F l2) by lia. now rewrite B.
Qed.

Lemma evp_calculate_same : forall E P v a holds e buffer size hash n s, honours P a holds -> reliable P a -> (forall i, alloc_ok E i = true) ->
  good_state s -> arg s buffer size -> arg s hash n -> hash_args E a buffer size hash n -> evp_hash_args E v a buffer size hash n ->
  (a = SHA512 -> plat64 E = false \/ size < 2 ^ 61) ->
  exists s1 s2, calculate E a buffer size hash n e s = Done 1%Z s1 /\ calculate_with (evp E P v a) a buffer size hash n e s = Done 1%Z s2 /\
  same_cells s s1 s2 /\ errs s1 = errs s2.
Proof.
  intros E P v a holds e buffer size hash n s HP R A G HB HH HA HV HS.
  destruct (calc_spec a E buffer size hash n e s G HB HH HS) as (r & s1 & U1 & [(-> & _ & _ & bp & hp & -> & -> & D1)|(_ & [(i & _ & X)|X])]); [|rewrite A in X; discriminate|contradiction].
  destruct (calculate_errors E a (Some bp) size (Some hp) n e s G HB HH) as (r' & s1' & U1' & _ & E1 & _). rewrite U1 in U1'. injection U1' as <- <-.
  pose proof (calculate_writes E a bp size hp n e s s1 G HB HH U1) as W1.
  destruct (evp_calculate E P v a holds HP e (Some bp) size (Some hp) n s G HB HH) as (r & s2 & U2 & _ & _ & W2 & [(-> & _ & E2 & bp' & hp' & Hb & Hh & D2)|(_ & _ & [(i & _ & X)|[X|X]])]);
    [|rewrite A in X; discriminate|contradiction|contradiction].
  injection Hb as <-. injection Hh as <-. exists s1, s2. split; [exact U1|]. split; [exact U2|]. split; [|rewrite (E1 eq_refl); symmetry; now apply E2].
  apply (two_outputs s s1 s2 hp (digest_size a)); [|exact W1|exact W2|congruence]. destruct HH as (l & Y & Z). exists l. split; [exact Y|]. destruct HA as (_ & _ & _ & HA). lia.
Qed.
Lemma evp_hmac_same : forall E P v a holds e key key_size buffer size hash n s, honours P a holds -> reliable P a -> (forall i, alloc_ok E i = true) ->
  good_state s -> arg s key key_size -> arg s buffer size -> arg s hash n ->
  hmac_args E a key key_size buffer size hash n -> evp_hmac_args E v a key key_size buffer size hash n ->
  (a = SHA512 -> plat64 E = false \/ (key_size < 2 ^ 61 /\ 128 + size < 2 ^ 61)) ->
  exists s1 s2, calculate_hmac E a key key_size buffer size hash n e s = Done 1%Z s1 /\
  calculate_hmac_with E (evp E P v a) a key key_size buffer size hash n e s = Done 1%Z s2 /\
  same_cells s s1 s2 /\ errs s1 = errs s2.
Proof.
  intros E P v a holds e key key_size buffer size hash n s HP R A G HK HB HH HA HV HS.
  destruct (hmac_spec a E key key_size buffer size hash n e s G HK HB HH HS) as (r & s1 & U1 & [(-> & _ & _ & kp & bp & hp & -> & -> & -> & D1)|(_ & [(i & _ & X)|X])]);
    [|rewrite A in X; discriminate|contradiction].
  destruct (hmac_errors E a (Some kp) key_size (Some bp) size (Some hp) n e s G HK HB HH) as (r' & s1' & U1' & _ & E1 & _). rewrite U1 in U1'. injection U1' as <- <-.
  pose proof (hmac_writes E a kp key_size bp size hp n e s s1 G HK HB HH U1) as W1.
  destruct (evp_hmac E P v a holds HP e (Some kp) key_size (Some bp) size (Some hp) n s G HK HB HH) as (r & s2 & U2 & _ & _ & W2 & [(-> & _ & E2 & kp' & bp' & hp' & Hk & Hb & Hh & D2)|(_ & _ & [(i & _ & X)|[X|X]])]);
    [|rewrite A in X; discriminate|contradiction|contradiction].
  injection Hk as <-. injection Hb as <-. injection Hh as <-. exists s1, s2. split; [exact U1|]. split; [exact U2|]. split; [|rewrite (E1 eq_refl); symmetry; now apply E2].
  apply (two_outputs s s1 s2 hp (digest_size a)); [|exact W1|exact W2|congruence]. destruct HH as (l & Y & Z). exists l. split; [exact Y|]. destruct HA as (_ & _ & _ & _ & _ & HA). lia.
Qed.

(* ------------------------------------------------ where the builds differ *)

Definition big_state (l : list N) : state := mk_state [array [97; 98; 99]; array l] 0 [] [].
Lemma big_good : forall l, Forall is_byte l -> good_state (big_state l).
Proof.
  intros l L [|[|p]] o; unfold get_obj; cbn [mem big_state nth_error array live content]; intros X; [injection X as <-; repeat constructor|injection X as <-; exact L|].
  destruct p; discriminate X.
Qed.
Lemma big_arg : forall l, N.of_nat (length l) = 2 ^ 32 -> arg (big_state l) (Some (1%nat, 0)) (2 ^ 32).
Proof. intros l L. exists l. split; [reflexivity|]. rewrite L. cbn [snd]. apply N.le_refl. Qed.
Lemma evp_large_list : forall l, Forall is_byte l -> N.of_nat (length l) = 2 ^ 32 ->
  exists E P v a holds buffer size hash n e s s1 s2, honours P a holds /\ reliable P a /\ (forall i, alloc_ok E i = true) /\
  good_state s /\ arg s buffer size /\ arg s hash n /\ hash_args E a buffer size hash n /\
  calculate E a buffer size hash n e s = Done 1%Z s1 /\ calculate_with (evp E P v a) a buffer size hash n e s = Done (-1)%Z s2.
Proof.
  intros l HL LL. pose proof (big_good l HL) as G. pose proof (big_arg l LL) as A1.
  set (E := demo_env true true).
  assert (A : forall i, alloc_ok E i = true) by reflexivity.
  assert (B : arg (big_state l) (Some (0%nat, 0)) 3) by (exists [97; 98; 99]; split; [reflexivity|discriminate]).
  assert (HA : hash_args E MD5 (Some (0%nat, 0)) 3 (Some (1%nat, 0)) (2 ^ 32)) by (split; [discriminate|split; [discriminate|split; [discriminate|split; discriminate]]]).
  destruct (calc_spec MD5 E (Some (0%nat, 0)) 3 (Some (1%nat, 0)) (2 ^ 32) true (big_state l) G B A1) as (r & s1 & U1 & [(-> & _)|(_ & [(i & _ & X)|X])]);
    [discriminate| |rewrite A in X; discriminate|contradiction].
  destruct (evp_calculate E plain_provider Outside MD5 keeps (plain_honours MD5) true (Some (0%nat, 0)) 3 (Some (1%nat, 0)) (2 ^ 32) (big_state l) G B A1) as (r & s2 & U2 & _ & _ & _ & [(-> & X & _)|(-> & _)]).
  { exfalso. destruct X as (_ & _ & _ & _ & X). apply X. reflexivity. }
  exists E, plain_provider, Outside, MD5, keeps, (Some (0%nat, 0)), 3, (Some (1%nat, 0)), (2 ^ 32), true, (big_state l), s1, s2.
  split; [apply plain_honours|]. split; [apply plain_reliable|]. split; [exact A|]. split; [exact G|]. split; [exact B|]. split; [exact A1|]. split; [exact HA|]. split; [exact U1|exact U2].
Qed.
Lemma zeroes_length : forall n, N.of_nat (length (repeat 0 (N.to_nat n))) = n.
Proof. intros n. now rewrite repeat_length, N2Nat.id. Qed.
Lemma zeroes_bytes : forall k, Forall is_byte (repeat 0 k).
Proof. intros k. apply Forall_forall. intros x X. apply repeat_spec in X. subst x. reflexivity. Qed.
Lemma evp_large : exists E P v a holds buffer size hash n e s s1 s2, honours P a holds /\ reliable P a /\ (forall i, alloc_ok E i = true) /\
  good_state s /\ arg s buffer size /\ arg s hash n /\ hash_args E a buffer size hash n /\
  calculate E a buffer size hash n e s = Done 1%Z s1 /\ calculate_with (evp E P v a) a buffer size hash n e s = Done (-1)%Z s2.
Proof. exact (evp_large_list _ (zeroes_bytes _) (zeroes_length _)). Qed.

Lemma evp_not_silent : exists E P a holds buffer size hash n s s', honours P a holds /\ (forall i, alloc_ok E i = true) /\
  good_state s /\ arg s buffer size /\ arg s hash n /\ errs s = [] /\
  calculate_with (evp E P Inside a) a buffer size hash n true s = Done 1%Z s' /\ errs s' <> [].
Proof.
  set (o := calculate_with (evp (demo_env true true) messy_provider Inside MD5) MD5 (Some (0%nat, 0)) 0 (Some (1%nat, 0)) 16 true demo_state).
  exists (demo_env true true), messy_provider, MD5, keeps, (Some (0%nat, 0)), 0, (Some (1%nat, 0)), 16, demo_state, (final o).
  split; [apply messy_honours|]. split; [reflexivity|]. split; [exact demo_good|]. split; [demo_arg|]. split; [demo_arg|]. split; [reflexivity|].
  assert (X : result o = Some 1%Z /\ negb (Nat.eqb (length (errs (final o))) 0) = true) by (vm_compute; split; reflexivity).
  destruct X as (X & Y). fold o. destruct o as [z s'|]; [|discriminate X]. cbn [result final] in *. injection X as ->. split; [reflexivity|].
  intros Q. rewrite Q in Y. discriminate Y.
Qed.
