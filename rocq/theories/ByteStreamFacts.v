(* The byte order macros read and write numbers in big and little endian order. *)
From Coq Require Import Arith NArith List Lia Bool.
From Verif Require Import Words Spec WordFacts LibTheorems ByteStream.
Import ListNotations.
Open Scope N_scope.

Definition steps (ks : list nat) : list rstmt := flat_map (fun k => [RShl; ROr k]) ks.
Definition horner (k : nat) (ks : list nat) : list rstmt := RSet k :: steps ks.

Lemma steps_value : forall w bytes ks l bs, Forall is_byte l -> Forall is_byte bs ->
  map (aget bytes) ks = map Some bs -> 8 * N.of_nat (length l + length ks) <= w ->
  read_macro w bytes (steps ks) (be_value l) = Some (be_value (l ++ bs)).
Proof.
  induction ks as [|k ks IH]; intros l bs HL HB HM HW.
  - destruct bs; [|discriminate]. now rewrite app_nil_r.
  - destruct bs as [|b bs]; [discriminate|]. cbn [map] in HM. injection HM as Hk HM. inversion_clear HB as [|? ? B0 B1].
    unfold steps. cbn [flat_map app read_macro]. rewrite Hk. cbn [obind].
    assert (S1 : N.lor (ushl w (be_value l) 8) b = be_value (l ++ [b])).
    { rewrite be_value_snoc. unfold ushl. rewrite N.shiftl_mul_pow2. rewrite N.mod_small.
      - rewrite (lor_add _ _ 8) by exact B0. lia.
      - apply be_value_bound in HL. cbn [length] in HW. apply N.lt_le_trans with (256 ^ N.of_nat (length l) * 2 ^ 8).
        + apply N.mul_lt_mono_pos_r; [reflexivity|assumption].
        + rewrite pow256, <- N.pow_add_r. apply N.pow_le_mono_r; lia. }
    rewrite S1. fold (steps ks). rewrite (IH (l ++ [b]) bs).
    + now rewrite <- app_assoc.
    + apply Forall_app. split; [assumption|]. constructor; [assumption|constructor].
    + assumption.
    + assumption.
    + rewrite app_length. cbn [length] in *. lia.
Qed.
Lemma horner_value : forall w bytes k ks b bs v0, is_byte b -> Forall is_byte bs -> aget bytes k = Some b ->
  map (aget bytes) ks = map Some bs -> 8 * N.of_nat (S (length ks)) <= w ->
  read_macro w bytes (horner k ks) v0 = Some (be_value (b :: bs)).
Proof.
  intros w bytes k ks b bs v0 HB HBS HK HKS HW. unfold horner. cbn [read_macro]. rewrite HK. cbn [obind].
  exact (steps_value w bytes ks [b] bs (Forall_cons _ HB (Forall_nil _)) HBS HKS HW).
Qed.

(* big and little endian readers of n bytes *)
Definition reads_be (n : nat) (m : list rstmt) : Prop := m = horner 0 (seq 1 (n - 1)).
Definition reads_le (n : nat) (m : list rstmt) : Prop := m = horner (n - 1) (rev (seq 0 (n - 1))).

Lemma map_aget : forall (l rest : list N) off, map (aget (off ++ l ++ rest)) (seq (length off) (length l)) = map Some l.
Proof.
  induction l as [|b l IH]; intros rest off; [reflexivity|]. cbn [length seq map]. f_equal.
  - unfold aget. rewrite nth_error_app2 by lia. now rewrite Nat.sub_diag.
  - specialize (IH rest (off ++ [b])). rewrite app_length in IH. cbn [length] in IH.
    rewrite Nat.add_1_r in IH. rewrite <- app_assoc in IH. exact IH.
Qed.

Lemma read_be_ok : forall w n m l rest v0, reads_be n m -> length l = n -> (0 < n)%nat -> Forall is_byte l -> 8 * N.of_nat n <= w ->
  read_macro w (l ++ rest) m v0 = Some (be_value l).
Proof.
  intros w n m l rest v0 -> HL HN HF HW. destruct l as [|b bs]; [cbn in HL; lia|]. inversion_clear HF as [|? ? B0 B1].
  cbn [length] in HL. apply horner_value; try assumption; [reflexivity| |rewrite seq_length; lia].
  replace (n - 1)%nat with (length bs) by lia. exact (map_aget bs rest [b]).
Qed.
Lemma read_le_ok : forall w n m l rest v0, reads_le n m -> length l = n -> (0 < n)%nat -> Forall is_byte l -> 8 * N.of_nat n <= w ->
  read_macro w (l ++ rest) m v0 = Some (le_value l).
Proof.
  intros w n m l rest v0 -> HL HN HF HW. unfold le_value.
  destruct (rev l) as [|b bs] eqn:R; [apply (f_equal (@length N)) in R; rewrite rev_length in R; cbn in R; lia|].
  assert (HLR : l = rev bs ++ [b]) by (rewrite <- (rev_involutive l), R; reflexivity).
  assert (HFR : Forall is_byte (b :: bs)) by (rewrite <- R; now apply Forall_rev). inversion_clear HFR as [|? ? B0 B1].
  assert (HLB : length bs = (n - 1)%nat) by (apply (f_equal (@length N)) in R; rewrite rev_length in R; cbn in R; lia).
  apply horner_value; try assumption.
  - unfold aget. rewrite HLR, <- app_assoc. rewrite nth_error_app2 by (rewrite rev_length; lia). rewrite rev_length, HLB, Nat.sub_diag. reflexivity.
  - rewrite map_rev, HLR, <- app_assoc. pose proof (map_aget (rev bs) ([b] ++ rest) []) as M. cbn [app length] in M.
    rewrite rev_length, HLB in M. cbn [app]. rewrite M, <- map_rev, rev_involutive. reflexivity.
  - rewrite rev_length, seq_length. lia.
Qed.

(* writers *)
Definition shifts (n : nat) : list N := map (fun i => 8 * N.of_nat i) (seq 0 n).
Definition writes_be (n : nat) (m : list (nat * N)) : Prop := m = combine (seq 0 n) (rev (shifts n)).
Definition writes_le (n : nat) (m : list (nat * N)) : Prop := m = rev (combine (seq 0 n) (shifts n)).

Lemma byte_of : forall v i, N.land (ushr v (8 * i)) 0xff = (v / 2 ^ (8 * i)) mod 256.
Proof.
  intros. unfold ushr. rewrite N.shiftr_div_pow2. change 0xff with (N.ones 8). now rewrite N.land_ones.
Qed.
Lemma aset_app : forall A (l : list A) x r v, aset (l ++ x :: r) (length l) v = Some (l ++ v :: r).
Proof. induction l; intros x r v; [reflexivity|]. cbn [app length aset]. now rewrite IHl. Qed.

Lemma write_up : forall v ns pre old rest, length old = length ns ->
  write_macro v (combine (seq (length pre) (length ns)) ns) (pre ++ old ++ rest) =
  Some (pre ++ map (fun n => N.land (ushr v n) 0xff) ns ++ rest).
Proof.
  intros v ns. induction ns as [|n ns IH]; intros pre old rest HO.
  - destruct old; [|discriminate]. reflexivity.
  - destruct old as [|o old]; [discriminate|]. cbn [length seq combine write_macro map app]. rewrite aset_app. cbn [obind].
    specialize (IH (pre ++ [N.land (ushr v n) 255]) old rest). rewrite app_length in IH. cbn [length] in IH. rewrite Nat.add_1_r in IH.
    rewrite <- !app_assoc in IH. cbn [app] in IH. apply IH. cbn in HO. lia.
Qed.
Lemma write_app : forall v l1 l2 b, write_macro v (l1 ++ l2) b = obind (write_macro v l1 b) (write_macro v l2).
Proof.
  intros v l1. induction l1 as [|[k n] l1 IH]; intros l2 b; [reflexivity|]. cbn [app write_macro].
  destruct (aset b k _); [apply IH|reflexivity].
Qed.
Lemma combine_snoc : forall A B (a : list A) (b : list B) x y, length a = length b -> combine (a ++ [x]) (b ++ [y]) = combine a b ++ [(x, y)].
Proof.
  induction a as [|u a IH]; intros [|v b] x y H; try discriminate; [reflexivity|]. cbn [app combine]. rewrite IH by (cbn in H; lia). reflexivity.
Qed.
Lemma write_down : forall v ns old rest, length old = length ns ->
  write_macro v (rev (combine (seq 0 (length ns)) ns)) (old ++ rest) = Some (map (fun n => N.land (ushr v n) 0xff) ns ++ rest).
Proof.
  intros v ns. induction ns as [|n ns IH] using rev_ind; intros old rest HO.
  - destruct old; [|discriminate]. reflexivity.
  - rewrite app_length in *. cbn [length] in *. rewrite Nat.add_1_r in *. rewrite seq_S.
    cbn [Nat.add]. rewrite combine_snoc by apply seq_length. rewrite rev_app_distr. cbn [rev app write_macro].
    destruct old as [|o old] using rev_ind; [discriminate|]. clear IHold. rewrite app_length in HO. cbn [length] in HO.
    assert (HO' : length old = length ns) by lia. rewrite <- app_assoc. cbn [app]. rewrite <- HO' at 1. rewrite aset_app. cbn [obind].
    rewrite (IH old) by exact HO'. rewrite map_app, <- app_assoc. reflexivity.
Qed.
Lemma map_shifts : forall v n, map (fun k => N.land (ushr v k) 0xff) (shifts n) = le_bytes n v.
Proof. intros. unfold shifts. rewrite map_map, le_bytes_map. apply map_ext. intros i. apply byte_of. Qed.
Lemma write_be_ok : forall n m v old rest, writes_be n m -> length old = n -> write_macro v m (old ++ rest) = Some (be_bytes n v ++ rest).
Proof.
  intros n m v old rest -> HO. pose proof (write_up v (rev (shifts n)) [] old rest) as W.
  assert (HL : length (rev (shifts n)) = n) by (unfold shifts; now rewrite rev_length, map_length, seq_length).
  rewrite HL in W. cbn [length app] in W. rewrite W by exact HO. rewrite map_rev, map_shifts. reflexivity.
Qed.
Lemma write_le_ok : forall n m v old rest, writes_le n m -> length old = n -> write_macro v m (old ++ rest) = Some (le_bytes n v ++ rest).
Proof.
  intros n m v old rest -> HO. pose proof (write_down v (shifts n) old rest) as W.
  assert (HL : length (shifts n) = n) by (unfold shifts; now rewrite map_length, seq_length).
  rewrite HL in W. rewrite W by exact HO. now rewrite map_shifts.
Qed.

(* values and byte strings correspond one to one *)
Lemma le_value_cons : forall b l, le_value (b :: l) = b + 256 * le_value l.
Proof. intros. unfold le_value. cbn [rev]. rewrite be_value_snoc. lia. Qed.
Lemma le_value_bytes : forall n v, v < 256 ^ N.of_nat n -> le_value (le_bytes n v) = v.
Proof.
  induction n as [|n IH]; intros v H.
  - cbn in H. assert (v = 0) by lia. subst. reflexivity.
  - cbn [le_bytes]. rewrite le_value_cons, IH.
    + pose proof (N.div_mod v 256). lia.
    + rewrite Nat2N.inj_succ, N.pow_succ_r' in H. apply N.div_lt_upper_bound; lia.
Qed.
Lemma le_bytes_of_value : forall l, Forall is_byte l -> le_bytes (length l) (le_value l) = l.
Proof.
  induction l as [|b l IH]; intros H; [reflexivity|]. inversion_clear H as [|? ? B0 B1]. cbn [length le_bytes].
  rewrite le_value_cons. unfold is_byte in B0. rewrite (N.mul_comm 256). f_equal.
  - rewrite N.mod_add by discriminate. now apply N.mod_small.
  - rewrite N.div_add by discriminate. rewrite N.div_small by exact B0. cbn [N.add]. now apply IH.
Qed.
Lemma be_value_bytes : forall n v, v < 256 ^ N.of_nat n -> be_value (be_bytes n v) = v.
Proof. intros n v H. unfold be_bytes. change (le_value (le_bytes n v) = v). now apply le_value_bytes. Qed.
Lemma be_bytes_of_value : forall l, Forall is_byte l -> be_bytes (length l) (be_value l) = l.
Proof.
  intros l H. unfold be_bytes. replace (be_value l) with (le_value (rev l)) by (unfold le_value; now rewrite rev_involutive).
  rewrite <- (rev_length l). rewrite le_bytes_of_value by now apply Forall_rev. apply rev_involutive.
Qed.

(* the macros *)
Definition be_readers : list (nat * list rstmt) :=
  [(2%nat, copy_to_uint16_big_endian); (3%nat, copy_to_uint24_big_endian); (4%nat, copy_to_uint32_big_endian);
   (6%nat, copy_to_uint48_big_endian); (8%nat, copy_to_uint64_big_endian);
   (4%nat, copy_to_1x_uint32_big_endian); (8%nat, copy_to_1x_uint64_big_endian)].
Definition le_readers : list (nat * list rstmt) :=
  [(2%nat, copy_to_uint16_little_endian); (3%nat, copy_to_uint24_little_endian); (4%nat, copy_to_uint32_little_endian);
   (8%nat, copy_to_uint64_little_endian); (4%nat, copy_to_1x_uint32_little_endian)].
Definition be_writers : list (nat * list (nat * N)) :=
  [(2%nat, copy_from_uint16_big_endian); (3%nat, copy_from_uint24_big_endian); (4%nat, copy_from_uint32_big_endian);
   (6%nat, copy_from_uint48_big_endian); (8%nat, copy_from_uint64_big_endian)].
Definition le_writers : list (nat * list (nat * N)) :=
  [(2%nat, copy_from_uint16_little_endian); (3%nat, copy_from_uint24_little_endian); (4%nat, copy_from_uint32_little_endian);
   (6%nat, copy_from_uint48_little_endian); (8%nat, copy_from_uint64_little_endian)].

Lemma be_readers_ok : forall n m, In (n, m) be_readers -> reads_be n m /\ (0 < n)%nat.
Proof. intros n m H. repeat (destruct H as [H|H]; [injection H as <- <-; split; [reflexivity|lia]|]). destruct H. Qed.
Lemma le_readers_ok : forall n m, In (n, m) le_readers -> reads_le n m /\ (0 < n)%nat.
Proof. intros n m H. repeat (destruct H as [H|H]; [injection H as <- <-; split; [reflexivity|lia]|]). destruct H. Qed.
Lemma be_writers_ok : forall n m, In (n, m) be_writers -> writes_be n m.
Proof. intros n m H. repeat (destruct H as [H|H]; [injection H as <- <-; reflexivity|]). destruct H. Qed.
Lemma le_writers_ok : forall n m, In (n, m) le_writers -> writes_le n m.
Proof. intros n m H. repeat (destruct H as [H|H]; [injection H as <- <-; reflexivity|]). destruct H. Qed.

Lemma read_be_all : forall n m w l rest v0, In (n, m) be_readers -> length l = n -> Forall is_byte l -> 8 * N.of_nat n <= w ->
  read_macro w (l ++ rest) m v0 = Some (be_value l).
Proof. intros n m w l rest v0 H HL HF HW. destruct (be_readers_ok n m H). eapply read_be_ok; eassumption. Qed.
Lemma read_le_all : forall n m w l rest v0, In (n, m) le_readers -> length l = n -> Forall is_byte l -> 8 * N.of_nat n <= w ->
  read_macro w (l ++ rest) m v0 = Some (le_value l).
Proof. intros n m w l rest v0 H HL HF HW. destruct (le_readers_ok n m H). eapply read_le_ok; eassumption. Qed.
Lemma write_be_all : forall n m v old rest, In (n, m) be_writers -> length old = n ->
  write_macro v m (old ++ rest) = Some (be_bytes n v ++ rest).
Proof. intros n m v old rest H HL. apply write_be_ok; [now apply be_writers_ok|exact HL]. Qed.
Lemma write_le_all : forall n m v old rest, In (n, m) le_writers -> length old = n ->
  write_macro v m (old ++ rest) = Some (le_bytes n v ++ rest).
Proof. intros n m v old rest H HL. apply write_le_ok; [now apply le_writers_ok|exact HL]. Qed.

Lemma round_trip_be : forall n r m w v old rest v0 out, In (n, r) be_readers -> In (n, m) be_writers ->
  length old = n -> v < 256 ^ N.of_nat n -> 8 * N.of_nat n <= w -> write_macro v m (old ++ rest) = Some out ->
  read_macro w out r v0 = Some v.
Proof.
  intros n r m w v old rest v0 out HR HM HO HV HW HX. rewrite (write_be_all n m) in HX by assumption. injection HX as <-.
  rewrite (read_be_all n r) by (assumption || apply be_bytes_length || apply be_bytes_bytes). f_equal. now apply be_value_bytes.
Qed.
Lemma round_trip_le : forall n r m w v old rest v0 out, In (n, r) le_readers -> In (n, m) le_writers ->
  length old = n -> v < 256 ^ N.of_nat n -> 8 * N.of_nat n <= w -> write_macro v m (old ++ rest) = Some out ->
  read_macro w out r v0 = Some v.
Proof.
  intros n r m w v old rest v0 out HR HM HO HV HW HX. rewrite (write_le_all n m) in HX by assumption. injection HX as <-.
  rewrite (read_le_all n r) by (assumption || apply le_bytes_length || apply le_bytes_bytes). f_equal. now apply le_value_bytes.
Qed.
Lemma rewrite_be : forall n r m w l rest v0 v old rest', In (n, r) be_readers -> In (n, m) be_writers ->
  length l = n -> length old = n -> Forall is_byte l -> 8 * N.of_nat n <= w -> read_macro w (l ++ rest) r v0 = Some v ->
  write_macro v m (old ++ rest') = Some (l ++ rest').
Proof.
  intros n r m w l rest v0 v old rest' HR HM HL HO HF HW HX. rewrite (read_be_all n r) in HX by assumption. injection HX as <-.
  rewrite (write_be_all n m) by assumption. rewrite <- HL, be_bytes_of_value by exact HF. reflexivity.
Qed.
Lemma rewrite_le : forall n r m w l rest v0 v old rest', In (n, r) le_readers -> In (n, m) le_writers ->
  length l = n -> length old = n -> Forall is_byte l -> 8 * N.of_nat n <= w -> read_macro w (l ++ rest) r v0 = Some v ->
  write_macro v m (old ++ rest') = Some (l ++ rest').
Proof.
  intros n r m w l rest v0 v old rest' HR HM HL HO HF HW HX. rewrite (read_le_all n r) in HX by assumption. injection HX as <-.
  rewrite (write_le_all n m) by assumption. rewrite <- HL, le_bytes_of_value by exact HF. reflexivity.
Qed.

(* uint48 little endian: right only when the variable was zero before *)
Lemma read48_le : forall w l rest, length l = 6%nat -> Forall is_byte l -> 48 <= w ->
  read_macro w (l ++ rest) copy_to_uint48_little_endian 0 = Some (le_value l).
Proof.
  intros w l rest HL HF HW.
  assert (X : read_macro w (l ++ rest) copy_to_uint48_little_endian 0 = read_macro w (l ++ rest) (horner 5 [4; 3; 2; 1; 0]%nat) 0).
  { unfold copy_to_uint48_little_endian, horner. cbn [read_macro]. destruct (aget (l ++ rest) 5); reflexivity. }
  rewrite X. apply (read_le_ok w 6); try assumption; [reflexivity|lia].
Qed.
Lemma read48_le_bad : exists l v0, length l = 6%nat /\ Forall is_byte l /\ v0 < 2 ^ 64 /\
  read_macro 64 l copy_to_uint48_little_endian v0 <> Some (le_value l).
Proof.
  exists [0; 0; 0; 0; 0; 0], 1. split; [reflexivity|]. split; [repeat constructor|]. split; [reflexivity|]. vm_compute. discriminate.
Qed.
(* libhmac_byte_stream.h:112: the value read so far is overwritten *)
Lemma read64_le_bad : forall l rest v0, length l = 8%nat -> Forall is_byte l ->
  read_macro 64 (l ++ rest) copy_to_1x_uint64_little_endian v0 = Some (le_value (firstn 4 l)).
Proof.
  intros l rest v0 HL HF.
  assert (X : read_macro 64 (l ++ rest) copy_to_1x_uint64_little_endian v0 = read_macro 64 (l ++ rest) (horner 3 [2; 1; 0]%nat) v0).
  { do 8 (destruct l as [|? l]; [discriminate|]). reflexivity. }
  rewrite X. rewrite <- (firstn_skipn 4 l) at 1. rewrite <- app_assoc. apply (read_le_ok 64 4); try reflexivity; try lia.
  - rewrite firstn_length. lia.
  - apply Forall_forall. intros x Hx. rewrite Forall_forall in HF. apply HF. rewrite <- (firstn_skipn 4 l). apply in_or_app. now left.
Qed.

(* rotation *)
Lemma rotate_left_eq : forall w x n, (w = 8 \/ w = 16 \/ w = 32 \/ w = 64) -> x < 2 ^ w -> 0 < n < w -> rotate_left_macro w x n = ROTL w n x.
Proof.
  intros w x n HW HX HN. rewrite <- rotl_ROTL by (exact HX || lia). unfold rotate_left_macro, rotl.
  assert (P : 2 ^ w <> 0) by (apply N.pow_nonzero; discriminate).
  apply N.bits_inj. intros i. destruct (N.lt_ge_cases i w) as [L|L].
  - rewrite N.mod_pow2_bits_low by exact L. rewrite !N.lor_spec. f_equal. unfold ushl.
    rewrite !N.mod_pow2_bits_low; [reflexivity|exact L|]. unfold promoted. destruct (N.ltb_spec w 32); lia.
  - rewrite N.mod_pow2_bits_high by exact L. rewrite N.lor_spec. unfold ushl, ushr. rewrite N.mod_pow2_bits_high by exact L.
    rewrite N.shiftr_spec'. symmetry. cbn. apply (proj1 (lt_pow2_bits x w) HX). lia.
Qed.
Lemma rotate_right_eq : forall w x n, (w = 8 \/ w = 16 \/ w = 32 \/ w = 64) -> x < 2 ^ w -> 0 < n < w -> rotate_right_macro w x n = ROTR w n x.
Proof.
  intros w x n HW HX HN. rewrite <- rotr_ROTR by (exact HX || lia). unfold rotate_right_macro, rotr.
  apply N.bits_inj. intros i. destruct (N.lt_ge_cases i w) as [L|L].
  - rewrite N.mod_pow2_bits_low by exact L. rewrite !N.lor_spec. f_equal. unfold ushl.
    rewrite !N.mod_pow2_bits_low; [reflexivity|exact L|]. unfold promoted. destruct (N.ltb_spec w 32); lia.
  - rewrite N.mod_pow2_bits_high by exact L. rewrite N.lor_spec. unfold ushl, ushr. rewrite N.mod_pow2_bits_high by exact L.
    rewrite N.shiftr_spec'. rewrite orb_false_r. symmetry. apply (proj1 (lt_pow2_bits x w) HX). lia.
Qed.
Lemma rot_inverse : forall w x n, x < 2 ^ w -> n <= w -> ROTR w n (ROTL w n x) = x.
Proof.
  intros w x n HX HN. unfold ROTR, ROTL.
  assert (P : 2 ^ w = 2 ^ n * 2 ^ (w - n)) by (rewrite <- N.pow_add_r; f_equal; lia).
  assert (P1 : 2 ^ n <> 0) by (apply N.pow_nonzero; discriminate). assert (P2 : 2 ^ (w - n) <> 0) by (apply N.pow_nonzero; discriminate).
  assert (HQ : x / 2 ^ (w - n) < 2 ^ n) by (apply N.div_lt_upper_bound; [exact P2|]; rewrite N.mul_comm, <- P; exact HX).
  assert (HM : (x * 2 ^ n) mod 2 ^ w = (x mod 2 ^ (w - n)) * 2 ^ n).
  { rewrite P. rewrite (N.mul_comm (2 ^ n)). now rewrite N.mul_mod_distr_r. }
  rewrite HM. rewrite (N.add_comm (_ * _)). rewrite N.div_add by exact P1. rewrite N.mod_add by exact P1.
  rewrite (N.div_small _ _ HQ), (N.mod_small _ _ HQ). cbn [N.add].
  pose proof (N.div_mod x (2 ^ (w - n)) P2). lia.
Qed.
Lemma rotate_back : forall w x n, (w = 8 \/ w = 16 \/ w = 32 \/ w = 64) -> x < 2 ^ w -> 0 < n < w ->
  rotate_right_macro w (rotate_left_macro w x n) n = x.
Proof.
  intros w x n HW HX HN. assert (B : rotate_left_macro w x n < 2 ^ w).
  { unfold rotate_left_macro. apply N.mod_lt. apply N.pow_nonzero. discriminate. }
  rewrite rotate_right_eq by assumption. rewrite rotate_left_eq by assumption. apply rot_inverse; [exact HX|lia].
Qed.
