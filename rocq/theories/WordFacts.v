(* Facts about words, arrays and byte order conversion. *)
From Coq Require Import Arith NArith List Lia Bool.
From Verif Require Import Words Spec Transform.
Import ListNotations.
Open Scope N_scope.

(* ---------------------------------------------------------------- words *)

Definition word (w x : N) : Prop := x < 2 ^ w.

Lemma pow2_pos : forall n, 0 < 2 ^ n.
Proof. intros. apply N.neq_0_lt_0, N.pow_nonzero. lia. Qed.

Lemma lt_pow2_bits : forall x w, x < 2 ^ w <-> (forall i, w <= i -> N.testbit x i = false).
Proof.
  intros x w. split.
  - intros H i Hi. destruct (N.eq_dec x 0) as [->|Hx]; [apply N.bits_0|].
    apply N.bits_above_log2. apply N.log2_lt_pow2 in H; lia.
  - intros H. destruct (N.eq_dec x 0) as [->|Hx]; [apply pow2_pos|].
    apply N.log2_lt_pow2; [lia|].
    destruct (N.lt_ge_cases (N.log2 x) w) as [|Hge]; [assumption|].
    specialize (H _ Hge). rewrite N.bit_log2 in H by assumption. discriminate.
Qed.

Lemma word_land : forall w x y, word w x -> word w (N.land x y).
Proof.
  unfold word. intros w x y H. rewrite lt_pow2_bits in *. intros i Hi.
  rewrite N.land_spec, H by assumption. reflexivity.
Qed.
Lemma word_lor : forall w x y, word w x -> word w y -> word w (N.lor x y).
Proof.
  unfold word. intros w x y Hx Hy. rewrite lt_pow2_bits in *. intros i Hi.
  rewrite N.lor_spec, Hx, Hy by assumption. reflexivity.
Qed.
Lemma word_lxor : forall w x y, word w x -> word w y -> word w (N.lxor x y).
Proof.
  unfold word. intros w x y Hx Hy. rewrite lt_pow2_bits in *. intros i Hi.
  rewrite N.lxor_spec, Hx, Hy by assumption. reflexivity.
Qed.
Lemma word_uadd : forall w x y, word w (uadd w x y).
Proof. intros. apply N.mod_lt. generalize (pow2_pos w). lia. Qed.
Lemma word_plus : forall w x y, word w (plus w x y).
Proof. exact word_uadd. Qed.
Lemma word_0 : forall w, word w 0.
Proof. intros. apply pow2_pos. Qed.

Lemma uadd_plus : forall w a b, uadd w a b = plus w a b.
Proof. reflexivity. Qed.
Lemma plus_comm : forall w a b, plus w a b = plus w b a.
Proof. intros. unfold plus. now rewrite N.add_comm. Qed.
Lemma plus_assoc : forall w a b c, plus w (plus w a b) c = plus w a (plus w b c).
Proof.
  intros. unfold plus. pose proof (pow2_pos w).
  rewrite N.add_mod_idemp_l, N.add_mod_idemp_r by lia. f_equal. lia.
Qed.

Lemma unot_complement : forall w x, word w x -> unot w x = complement w x.
Proof.
  unfold unot, complement. intros w x H.
  assert (E : N.lxor x (N.ones w) = N.lnot x w) by reflexivity.
  rewrite E.
  destruct (N.eq_dec x 0) as [->|Hx].
  - unfold N.lnot. rewrite N.lxor_0_l, N.ones_equiv. lia.
  - rewrite N.lnot_sub_low; [rewrite N.ones_equiv; lia|].
    apply N.log2_lt_pow2; [lia|exact H].
Qed.
Lemma word_unot : forall w x, word w x -> word w (unot w x).
Proof.
  intros. rewrite unot_complement by assumption. unfold complement, word in *.
  pose proof (pow2_pos w). lia.
Qed.
Lemma word_complement : forall w x, word w (complement w x).
Proof. intros. unfold complement, word. pose proof (pow2_pos w). lia. Qed.

Lemma complement_spec : forall w x i, word w x -> i < w -> N.testbit (complement w x) i = negb (N.testbit x i).
Proof.
  intros. rewrite <- unot_complement by assumption. unfold unot.
  rewrite N.lxor_spec, N.ones_spec_low by assumption. apply Bool.xorb_true_r.
Qed.

(* lor of numbers without common bits is addition *)
Lemma lor_add : forall a b n, b < 2 ^ n -> N.lor (a * 2 ^ n) b = a * 2 ^ n + b.
Proof.
  intros a b n H.
  rewrite <- N.lxor_lor.
  - symmetry. apply N.add_nocarry_lxor.
    apply N.bits_inj. intro i. rewrite N.land_spec, N.bits_0.
    destruct (N.lt_ge_cases i n) as [Hi|Hi].
    + rewrite N.mul_pow2_bits_low by assumption. reflexivity.
    + rewrite lt_pow2_bits in H. rewrite H by assumption. apply andb_false_r.
  - apply N.bits_inj. intro i. rewrite N.land_spec, N.bits_0.
    destruct (N.lt_ge_cases i n) as [Hi|Hi].
    + rewrite N.mul_pow2_bits_low by assumption. reflexivity.
    + rewrite lt_pow2_bits in H. rewrite H by assumption. apply andb_false_r.
Qed.

Lemma shl_mod : forall x w n, n <= w -> (x * 2 ^ n) mod 2 ^ w = (x mod 2 ^ (w - n)) * 2 ^ n.
Proof.
  intros x w n H.
  replace (2 ^ w) with (2 ^ (w - n) * 2 ^ n).
  - pose proof (pow2_pos n). pose proof (pow2_pos (w - n)).
    apply N.mul_mod_distr_r; lia.
  - rewrite <- N.pow_add_r. f_equal. lia.
Qed.

Lemma div_lt_pow2 : forall x w n, word w x -> n <= w -> x / 2 ^ n < 2 ^ (w - n).
Proof.
  intros x w n H Hn. apply N.div_lt_upper_bound.
  - pose proof (pow2_pos n). lia.
  - rewrite <- N.pow_add_r. replace (n + (w - n)) with w by lia. exact H.
Qed.

Lemma rotl_ROTL : forall w x n, word w x -> n <= w -> rotl w x n = ROTL w n x.
Proof.
  intros w x n H Hn. unfold rotl, ROTL, ushl, ushr.
  rewrite N.shiftl_mul_pow2, N.shiftr_div_pow2.
  rewrite shl_mod by assumption. apply lor_add.
  replace n with (w - (w - n)) at 2 by lia. apply div_lt_pow2; [assumption|lia].
Qed.
Lemma word_ROTL : forall w x n, word w x -> n <= w -> word w (ROTL w n x).
Proof.
  intros w x n H Hn. rewrite <- rotl_ROTL by assumption. apply word_lor.
  - apply N.mod_lt. pose proof (pow2_pos w). lia.
  - unfold ushr. rewrite N.shiftr_div_pow2. unfold word.
    eapply N.lt_le_trans; [apply div_lt_pow2; [eassumption|lia]|].
    apply N.pow_le_mono_r; lia.
Qed.

Lemma rotr_ROTR : forall w x n, word w x -> n <= w -> rotr w x n = ROTR w n x.
Proof.
  intros w x n H Hn. unfold rotr, ROTR, ushl, ushr.
  rewrite N.shiftl_mul_pow2, N.shiftr_div_pow2.
  rewrite shl_mod by lia. replace (w - (w - n)) with n by lia.
  rewrite N.lor_comm, N.add_comm. apply lor_add. apply div_lt_pow2; assumption.
Qed.
Lemma word_rotr : forall w x n, word w x -> n <= w -> word w (rotr w x n).
Proof.
  intros w x n H Hn. unfold rotr. apply word_lor.
  - unfold ushr. rewrite N.shiftr_div_pow2. unfold word.
    eapply N.lt_le_trans; [apply div_lt_pow2; [eassumption|lia]|].
    apply N.pow_le_mono_r; lia.
  - apply N.mod_lt. pose proof (pow2_pos w). lia.
Qed.
Lemma ushr_SHR : forall x n, ushr x n = SHR n x.
Proof. intros. apply N.shiftr_div_pow2. Qed.
Lemma word_SHR : forall w x n, word w x -> word w (SHR n x).
Proof.
  intros w x n H. unfold SHR, word in *. eapply N.le_lt_trans; [|exact H].
  apply N.div_le_upper_bound; [pose proof (pow2_pos n); lia|].
  pose proof (pow2_pos n). nia.
Qed.

(* the disjunctive forms used by the SHA-1 code *)
Lemma ch_or_xor : forall w x y z, word w x -> word w y -> word w z ->
  N.lor (N.land x y) (N.land (complement w x) z) = Ch w x y z.
Proof.
  intros w x y z Hx Hy Hz. unfold Ch. apply N.bits_inj. intro i.
  rewrite N.lor_spec, N.lxor_spec, !N.land_spec.
  destruct (N.lt_ge_cases i w) as [Hi|Hi].
  - rewrite complement_spec by assumption.
    destruct (N.testbit x i), (N.testbit y i), (N.testbit z i); reflexivity.
  - unfold word in *. rewrite lt_pow2_bits in Hx, Hy, Hz.
    rewrite Hx, Hy, Hz by assumption. rewrite !andb_false_r. reflexivity.
Qed.
Lemma maj_or_xor : forall x y z,
  N.lor (N.lor (N.land x y) (N.land x z)) (N.land y z) = Maj x y z.
Proof.
  intros. unfold Maj. apply N.bits_inj. intro i.
  rewrite !N.lor_spec, !N.lxor_spec, !N.land_spec.
  destruct (N.testbit x i), (N.testbit y i), (N.testbit z i); reflexivity.
Qed.

(* --------------------------------------------------------------- arrays *)

Lemma aget_nth : forall A (l : list A) i d, (i < length l)%nat -> aget l i = Some (nth i l d).
Proof. intros. unfold aget. now apply nth_error_nth'. Qed.

Lemma aset_ok : forall A (l : list A) i v, (i < length l)%nat ->
  aset l i v = Some (firstn i l ++ v :: skipn (S i) l).
Proof.
  induction l; intros i v H; cbn in H; [lia|].
  destruct i; cbn; [reflexivity|]. rewrite IHl by lia. reflexivity.
Qed.

Lemma ofold_app : forall A B (f : A -> B -> option A) l1 l2 a,
  ofold f (l1 ++ l2) a = obind (ofold f l1 a) (fun a' => ofold f l2 a').
Proof.
  induction l1; intros; cbn; [reflexivity|].
  destruct (f a0 a); cbn; [apply IHl1|reflexivity].
Qed.

Lemma seq_snoc : forall n a, seq a (S n) = seq a n ++ [(a + n)%nat].
Proof.
  induction n; intros a; cbn; [f_equal; lia|].
  f_equal. cbn in IHn. rewrite IHn. f_equal. f_equal. lia.
Qed.

Lemma Forall_nth_word : forall w l i, Forall (word w) l -> word w (nth i l 0).
Proof.
  intros w l i H. destruct (Nat.lt_ge_cases i (length l)).
  - rewrite Forall_forall in H. apply H. now apply nth_In.
  - rewrite nth_overflow by assumption. apply word_0.
Qed.

(* ------------------------------------------------- byte strings and words *)

Lemma be_value_snoc : forall l b, be_value (l ++ [b]) = 256 * be_value l + b.
Proof. intros. unfold be_value. now rewrite fold_left_app. Qed.

Lemma be_value_bound : forall l, Forall is_byte l -> be_value l < 256 ^ N.of_nat (length l).
Proof.
  intros l. induction l using rev_ind; intros H.
  - cbn. lia.
  - apply Forall_app in H. destruct H as [H1 H2]. inversion_clear H2.
    specialize (IHl H1). rewrite be_value_snoc, app_length. cbn [length].
    rewrite Nat.add_1_r, Nat2N.inj_succ, N.pow_succ_r'. unfold is_byte in *. lia.
Qed.

Lemma pow256 : forall n, 256 ^ n = 2 ^ (8 * n).
Proof. intros. change 256 with (2 ^ 8). now rewrite <- N.pow_mul_r. Qed.

(* loading bytes most significant first *)
Lemma load_be : forall w buf off ks v l,
  (forall k, In k ks -> exists b, bget buf (off + k) = Some b /\ is_byte b) ->
  v = be_value l -> Forall is_byte l ->
  8 * N.of_nat (length l + length ks) <= w ->
  exists bs, Forall2 (fun k b => bget buf (off + k) = Some b) ks bs /\
    ofold (fun v k => b <-? bget buf (off + k); Some (N.lor (ushl w v 8) b)) ks v = Some (be_value (l ++ bs)).
Proof.
  induction ks as [|k ks IH]; intros v l Hb Hv Hl Hw.
  - exists []. split; [constructor|]. cbn. now rewrite app_nil_r, Hv.
  - destruct (Hb k) as [b [Eb Bb]]; [now left|].
    destruct (IH (be_value (l ++ [b])) (l ++ [b])) as [bs [F2 E]].
    + intros k' Hk'. apply Hb. now right.
    + reflexivity.
    + apply Forall_app. split; [assumption|]. constructor; [assumption|constructor].
    + rewrite app_length. cbn [length] in *. lia.
    + exists (b :: bs). split; [constructor; assumption|].
      cbn [ofold]. rewrite Eb. cbn [obind].
      rewrite <- app_assoc in E. cbn [app] in E.
      replace (N.lor (ushl w v 8) b) with (be_value (l ++ [b])); [exact E|].
      rewrite be_value_snoc, Hv. unfold ushl. rewrite N.shiftl_mul_pow2.
      rewrite N.mod_small.
      * rewrite (lor_add _ _ 8) by exact Bb. lia.
      * apply be_value_bound in Hl. cbn [length] in Hw.
        apply N.lt_le_trans with (256 ^ N.of_nat (length l) * 2 ^ 8).
        -- apply N.mul_lt_mono_pos_r; [reflexivity|assumption].
        -- rewrite pow256, <- N.pow_add_r. apply N.pow_le_mono_r; lia.
Qed.

Definition slice {A} (l : list A) (off n : nat) : list A := firstn n (skipn off l).

Lemma slice_length : forall A (l : list A) off n, (off + n <= length l)%nat -> length (slice l off n) = n.
Proof. intros. unfold slice. rewrite firstn_length, skipn_length. lia. Qed.

Lemma nth_error_slice : forall A (l : list A) off n i, (i < n)%nat ->
  nth_error (slice l off n) i = nth_error l (off + i).
Proof.
  intros A l off n i H. unfold slice.
  revert off n i H. induction l; intros.
  - rewrite skipn_nil, firstn_nil. destruct i, off; reflexivity.
  - destruct off; cbn [skipn Nat.add].
    + revert n i H. clear. revert a. induction l; intros.
      * destruct n; [lia|]. cbn. destruct i; [reflexivity|]. cbn. now rewrite firstn_nil.
      * destruct n; [lia|]. destruct i; [reflexivity|]. cbn [firstn nth_error].
        apply IHl. lia.
    + cbn [nth_error]. apply IHl. assumption.
Qed.

Lemma list_eq_nth_error : forall A (l1 l2 : list A), (forall i, nth_error l1 i = nth_error l2 i) -> l1 = l2.
Proof.
  induction l1; intros l2 H.
  - destruct l2; [reflexivity|]. specialize (H 0%nat). discriminate.
  - destruct l2; [specialize (H 0%nat); discriminate|].
    pose proof (H 0%nat) as H0. injection H0 as ->. f_equal. apply IHl1. intro i. apply (H (S i)).
Qed.

Lemma Forall_slice : forall A (P : A -> Prop) l off n, Forall P l -> Forall P (slice l off n).
Proof.
  intros. unfold slice. rewrite Forall_forall in *. intros x Hx. apply H.
  apply (In_nth _ _ x) in Hx. destruct Hx as [i [Hi E]].
  rewrite <- (firstn_skipn off l). apply in_or_app. right.
  rewrite <- (firstn_skipn n (skipn off l)). apply in_or_app. left.
  rewrite <- E. now apply nth_In.
Qed.

Lemma Forall2_bget : forall buf off ks bs n,
  ks = map N.of_nat (seq n (length ks)) ->
  Forall2 (fun k b => bget buf (off + k) = Some b) ks bs ->
  bs = slice buf (N.to_nat off + n) (length ks).
Proof.
  intros buf off ks bs n Hks HF. revert n Hks.
  induction HF as [|k b ks bs Hkb HF IH]; intros n Hks; cbn in *.
  - reflexivity.
  - injection Hks as Hk Hks. specialize (IH _ Hks). subst bs.
    unfold bget in Hkb. replace (N.to_nat (off + k)) with (N.to_nat off + n)%nat in Hkb by lia.
    unfold slice in *.
    replace (N.to_nat off + S n)%nat with (S (N.to_nat off + n)) by lia.
    generalize dependent (N.to_nat off + n)%nat. intros m Hm. clear -Hm.
    revert m Hm. induction buf; intros m Hm; [destruct m; discriminate|].
    destruct m; cbn in *; [congruence|]. now apply IHbuf.
Qed.

Lemma order_be32_seq : order_be32 = map N.of_nat (seq 0 4). Proof. reflexivity. Qed.
Lemma order_be64_seq : order_be64 = map N.of_nat (seq 0 8). Proof. reflexivity. Qed.

Lemma bget_in : forall buf off, Forall is_byte buf -> (N.to_nat off < length buf)%nat ->
  exists b, bget buf off = Some b /\ is_byte b.
Proof.
  intros buf off HF H. unfold bget. exists (nth (N.to_nat off) buf 0). split.
  - now apply nth_error_nth'.
  - rewrite Forall_forall in HF. apply HF. now apply nth_In.
Qed.

Lemma copy_to_be : forall w n buf off,
  (0 < n)%nat -> 8 * N.of_nat n <= w ->
  Forall is_byte buf -> (N.to_nat off + n <= length buf)%nat ->
  copy_to_uint w (map N.of_nat (seq 0 n)) buf off = Some (be_value (slice buf (N.to_nat off) n)).
Proof.
  intros w n buf off Hn Hw HF Hlen. destruct n as [|n]; [lia|].
  cbn [seq map copy_to_uint].
  destruct (bget_in buf (off + N.of_nat 0) HF) as [b [Eb Bb]]; [lia|].
  rewrite Eb. cbn [obind].
  destruct (load_be w buf off (map N.of_nat (seq 1 n)) b [b]) as [bs [F2 E]].
  - intros k Hk. apply in_map_iff in Hk. destruct Hk as [i [<- Hi]].
    apply in_seq in Hi. apply bget_in; [assumption|lia].
  - cbn. lia.
  - constructor; [assumption|constructor].
  - rewrite map_length, seq_length. cbn [length]. lia.
  - rewrite E. do 2 f_equal. cbn [app].
    assert (HX : b :: bs = slice buf (N.to_nat off + 0) (length (map N.of_nat (seq 0 (S n))))).
    { apply Forall2_bget; [now rewrite map_length, seq_length|]. cbn [seq map]. now constructor. }
    rewrite map_length, seq_length, Nat.add_0_r in HX. exact HX.
Qed.

Lemma copy_to_le32 : forall buf off,
  Forall is_byte buf -> (N.to_nat off + 4 <= length buf)%nat ->
  copy_to_uint 32 order_le32 buf off = Some (le_value (slice buf (N.to_nat off) 4)).
Proof.
  intros buf off HF Hlen. unfold order_le32. cbn [copy_to_uint].
  destruct (bget_in buf (off + 3) HF) as [b [Eb Bb]]; [lia|].
  rewrite Eb. cbn [obind].
  destruct (load_be 32 buf off [2; 1; 0] b [b]) as [bs [F2 E]].
  - intros k Hk. apply bget_in; [assumption|]. cbn in Hk. lia.
  - cbn. lia.
  - constructor; [assumption|constructor].
  - cbn [length]. lia.
  - rewrite E. f_equal. unfold le_value. f_equal.
    inversion F2 as [|k2 b2 ? r2 G2 F3]; subst. inversion F3 as [|k1 b1 ? r1 G1 F4]; subst.
    inversion F4 as [|k0 b0 ? r0 G0 F5]; subst. inversion F5; subst. cbn [app].
    assert (HX : [b0; b1; b2; b] = slice buf (N.to_nat off + 0) (length [0;1;2;3])).
    { apply Forall2_bget; [reflexivity|]. repeat (constructor; [assumption|]). constructor. }
    rewrite Nat.add_0_r in HX. cbn [length] in HX. rewrite <- HX. reflexivity.
Qed.

Lemma le_value_bound : forall l, Forall is_byte l -> le_value l < 256 ^ N.of_nat (length l).
Proof.
  intros. unfold le_value. rewrite <- rev_length. apply be_value_bound. now apply Forall_rev.
Qed.

(* writing a word *)
Lemma le_bytes_map : forall n v, le_bytes n v = map (fun i => (v / 2 ^ (8 * N.of_nat i)) mod 256) (seq 0 n).
Proof.
  induction n; intros v; [reflexivity|].
  cbn [le_bytes seq map]. rewrite N.mul_0_r, N.pow_0_r, N.div_1_r. f_equal.
  rewrite IHn, <- seq_shift, map_map. apply map_ext. intro i.
  rewrite Nat2N.inj_succ. f_equal. rewrite N.div_div by (try (pose proof (pow2_pos (8 * N.of_nat i))); lia).
  f_equal. replace (8 * N.succ (N.of_nat i)) with (8 + 8 * N.of_nat i) by lia.
  now rewrite N.pow_add_r.
Qed.

Lemma le_bytes_length : forall n v, length (le_bytes n v) = n.
Proof. induction n; intros; cbn; [reflexivity|]. now rewrite IHn. Qed.
Lemma be_bytes_length : forall n v, length (be_bytes n v) = n.
Proof. intros. unfold be_bytes. now rewrite rev_length, le_bytes_length. Qed.
Lemma le_bytes_bytes : forall n v, Forall is_byte (le_bytes n v).
Proof.
  induction n; intros; cbn; constructor; [|apply IHn]. unfold is_byte. apply N.mod_lt. lia.
Qed.
Lemma be_bytes_bytes : forall n v, Forall is_byte (be_bytes n v).
Proof. intros. apply Forall_rev. apply le_bytes_bytes. Qed.
Lemma le_bytes_mod : forall n v k, 8 * N.of_nat n <= k -> le_bytes n (v mod 2 ^ k) = le_bytes n v.
Proof.
  induction n; intros v k H; [reflexivity|]. cbn [le_bytes].
  assert (Hk : 2 ^ k = 256 * 2 ^ (k - 8)).
  { change 256 with (2 ^ 8). rewrite <- N.pow_add_r. f_equal. lia. }
  pose proof (pow2_pos (k - 8)).
  assert (E : v mod 2 ^ k = v mod 256 + 256 * ((v / 256) mod 2 ^ (k - 8))).
  { rewrite Hk. apply N.mod_mul_r; lia. }
  rewrite E. f_equal.
  - rewrite N.mul_comm, N.mod_add by lia. now rewrite N.mod_mod by lia.
  - rewrite N.mul_comm, N.div_add by lia.
    rewrite (N.div_small (v mod 256)) by (apply N.mod_lt; lia). cbn [N.add].
    apply IHn. lia.
Qed.
