(* The SHA-1 and SHA-2 block bodies compute the compression functions of Spec.v. *)
From Coq Require Import Arith NArith List Lia Bool.
From Verif Require Import Words Spec Tables Transform WordFacts BlockFacts.
Import ListNotations.
Open Scope N_scope.

Lemma plus_sum5 : forall w e f k r v,
  plus w (plus w (plus w (plus w e f) k) r) v = plus w (plus w (plus w (plus w r f) e) k) v.
Proof.
  intros. unfold plus. pose proof (pow2_pos w).
  repeat (rewrite <- ?N.add_assoc; rewrite N.add_mod_idemp_l by lia). f_equal. lia.
Qed.
Lemma plus_sum4 : forall w a b c d,
  plus w (plus w (plus w a b) c) d = plus w (plus w (plus w d c) b) a.
Proof.
  intros. unfold plus. pose proof (pow2_pos w).
  repeat (rewrite <- ?N.add_assoc; rewrite N.add_mod_idemp_l by lia). f_equal. lia.
Qed.

(* ------------------------------------------------------------ schedule *)

Lemma schedule_length : forall next X n, length (schedule next X n) = n.
Proof. induction n; [reflexivity|]. cbn [schedule]. rewrite app_length, IHn. cbn. lia. Qed.

Lemma firstn_snoc : forall A (l : list A) n d, (n < length l)%nat -> firstn (S n) l = firstn n l ++ [nth n l d].
Proof.
  induction l; intros n d H; cbn in H; [lia|].
  destruct n; [reflexivity|]. cbn [firstn nth app]. f_equal. apply IHl. lia.
Qed.

Lemma schedule_16 : forall next X t, (t <= 16)%nat -> length X = 16%nat -> schedule next X t = firstn t X.
Proof.
  intros next X t Ht HX. induction t; [reflexivity|].
  cbn [schedule]. rewrite IHt by lia.
  destruct (Nat.ltb_spec t 16); [|lia]. symmetry. apply firstn_snoc. lia.
Qed.

Lemma schedule_words : forall w next X n,
  Forall (word w) X -> (forall W t, Forall (word w) W -> word w (next W t)) ->
  Forall (word w) (schedule next X n).
Proof.
  intros w next X n HX Hn. induction n; [constructor|]. cbn [schedule]. apply Forall_app. split; [assumption|].
  constructor; [|constructor]. destruct (Nat.ltb n 16); [now apply Forall_nth_word|now apply Hn].
Qed.

Lemma nth_firstn : forall A (l : list A) n i d, (i < n)%nat -> nth i (firstn n l) d = nth i l d.
Proof.
  induction l; intros n i d H; [now rewrite firstn_nil|].
  destruct n; [lia|]. destruct i; [reflexivity|]. cbn [firstn nth]. apply IHl. lia.
Qed.

Lemma extend_ok : forall next ext X nv values,
  length X = 16%nat -> length values = nv -> (16 <= nv)%nat ->
  (forall W rest t, (16 <= t)%nat -> length W = t -> (t + length rest = nv)%nat -> (t < nv)%nat ->
     W = schedule next X t ->
     ext (W ++ rest) t = Some (W ++ next W t :: skipn 1 rest)) ->
  ofold ext (seq 16 (nv - 16)) (X ++ skipn 16 values) = Some (schedule next X nv).
Proof.
  intros next ext X nv values HX Hv Hnv Hext.
  assert (G : forall k, (16 + k <= nv)%nat ->
    ofold ext (seq 16 k) (X ++ skipn 16 values) = Some (schedule next X (16 + k) ++ skipn (16 + k) values)).
  { induction k; intros Hk.
    - cbn [seq ofold]. do 2 f_equal. rewrite schedule_16 by lia. now rewrite firstn_all2 by lia.
    - rewrite seq_snoc, ofold_app, IHk by lia. cbn [obind ofold].
      rewrite Hext; [| lia | apply schedule_length | rewrite skipn_length; lia | lia | reflexivity].
      cbn [obind]. f_equal. rewrite Nat.add_succ_r. cbn [schedule].
      destruct (Nat.ltb_spec (16 + k) 16); [lia|].
      rewrite <- app_assoc. cbn [app]. do 2 f_equal.
      rewrite skipn_skipn'. f_equal. lia. }
  specialize (G (nv - 16)%nat). replace (16 + (nv - 16))%nat with nv in G by lia.
  rewrite G by lia. rewrite skipn_all2 by lia. now rewrite app_nil_r.
Qed.

Lemma aget_app_l : forall (W rest : list N) i, (i < length W)%nat -> aget (W ++ rest) i = Some (nth i W 0).
Proof.
  intros. rewrite (aget_nth _ _ i 0) by (rewrite app_length; lia). now rewrite app_nth1.
Qed.

Lemma aset_app_r : forall (W rest : list N) t v, length W = t -> (0 < length rest)%nat ->
  aset (W ++ rest) t v = Some (W ++ v :: skipn 1 rest).
Proof.
  intros W rest t v H H0. rewrite aset_ok by (rewrite app_length; lia). f_equal.
  subst t. rewrite firstn_app, Nat.sub_diag, firstn_O, app_nil_r, firstn_all. f_equal. f_equal.
  rewrite skipn_app, skipn_all2 by lia. cbn [app]. f_equal. lia.
Qed.

(* --------------------------------------------------------------- SHA-1 *)

Definition l5 (q : q5) : list N := let '(a, b, c, d, e) := q in [a; b; c; d; e].
Definition q5_of (l : list N) : q5 := (nth 0 l 0, nth 1 l 0, nth 2 l 0, nth 3 l 0, nth 4 l 0).
Definition w5 (q : q5) : Prop := Forall (word 32) (l5 q).
Lemma l5_of : forall h, length h = 5%nat -> l5 (q5_of h) = h.
Proof. intros h H. do 6 (destruct h as [|? h]; try discriminate). reflexivity. Qed.

Definition sha1_words (block : list N) : list N := schedule sha1_next (map be_value (pieces 4 block)) 80.
Definition sha1_regs (h block : list N) : list N :=
  l5 (fold_left (sha1_step (sha1_words block)) (seq 0 80) (q5_of h)).
Definition sha1_compress_l (h block : list N) : list N := l5 (sha1_compress (q5_of h) block).

Lemma sha1_words_eq : forall block, sha1_words block = schedule sha1_next (map be_value (pieces 4 block)) 80.
Proof. intros. unfold sha1_words. reflexivity. Qed.
Lemma sha1_regs_eq : forall h block,
  sha1_regs h block = l5 (fold_left (sha1_step (sha1_words block)) (seq 0 80) (q5_of h)).
Proof. intros. unfold sha1_regs. reflexivity. Qed.

Lemma sha1_next_word : forall W t, Forall (word 32) W -> word 32 (sha1_next W t).
Proof.
  intros. unfold sha1_next. apply word_ROTL; [|lia].
  repeat apply word_lxor; now apply Forall_nth_word.
Qed.

Lemma sha1_extend_ok : forall X values,
  Forall (word 32) X -> length X = 16%nat -> length values = 80%nat ->
  ofold sha1_extend (seq 16 64) (X ++ skipn 16 values) = Some (schedule sha1_next X 80).
Proof.
  intros X values HXw HX Hv. change 64%nat with (80 - 16)%nat. apply extend_ok; try assumption; [lia|].
  intros W rest t Ht HW Hrest Htn HWs.
  assert (HWw : Forall (word 32) W).
  { rewrite HWs. apply schedule_words; [assumption|]. intros. now apply sha1_next_word. }
  unfold sha1_extend. destruct (Nat.ltb_spec t 16); [lia|].
  rewrite !aget_app_l by lia. cbn [obind].
  rewrite aset_app_r by (try assumption; lia). cbn [obind]. unfold amod.
  set (x := N.lxor _ _).
  assert (Hx : word 32 x) by (unfold x; repeat apply word_lxor; now apply Forall_nth_word).
  assert (Hget : aget (W ++ x :: skipn 1 rest) t = Some x).
  { rewrite (aget_nth _ _ t 0) by (rewrite app_length; cbn [length]; lia).
    rewrite app_nth2 by lia. rewrite HW, Nat.sub_diag. reflexivity. }
  rewrite Hget. cbn [obind].
  rewrite aset_app_r by (try assumption; cbn [length]; lia). cbn [skipn].
  do 3 f_equal. rewrite rotl_ROTL by (try assumption; lia). reflexivity.
Qed.

Lemma div20_cases : forall i, (i < 80)%nat ->
  ((i < 20 /\ i / 20 = 0) \/ (20 <= i < 40 /\ i / 20 = 1) \/ (40 <= i < 60 /\ i / 20 = 2) \/ (60 <= i /\ i / 20 = 3))%nat.
Proof.
  intros i H. pose proof (Nat.div_mod i 20). pose proof (Nat.mod_upper_bound i 20). lia.
Qed.

Lemma sha1_K_values : map (fun n => N.sqrt (nth n [2; 3; 5; 10] 0 * 2 ^ 60)) (seq 0 4)
                      = [0x5a827999; 0x6ed9eba1; 0x8f1bbcdc; 0xca62c1d6].
Proof. vm_compute. reflexivity. Qed.

Lemma sha1_K_at : forall i, (i < 80)%nat ->
  sha1_K i = nth (i / 20) [0x5a827999; 0x6ed9eba1; 0x8f1bbcdc; 0xca62c1d6] 0.
Proof.
  intros i H. unfold sha1_K. rewrite <- sha1_K_values.
  assert (Hq : (i / 20 < 4)%nat) by (destruct (div20_cases i H) as [[? E]|[[? E]|[[? E]|[? E]]]]; rewrite E; lia).
  generalize dependent (i / 20)%nat. intros q Hq.
  do 4 (destruct q as [|q]; [reflexivity|]). lia.
Qed.

Lemma sha1_round_ok : forall i b c d, (i < 80)%nat -> word 32 b -> word 32 c -> word 32 d ->
  sha1_round_fun (1 + i / 20)%nat b c d = Some (sha1_f i b c d, sha1_K i).
Proof.
  intros i b c d Hi Hb Hc Hd. rewrite sha1_K_at by assumption. unfold sha1_f.
  destruct (div20_cases i Hi) as [[? E]|[[? E]|[[? E]|[? E]]]]; rewrite E; cbn [Nat.add sha1_round_fun nth].
  - rewrite unot_complement, ch_or_xor by assumption. reflexivity.
  - reflexivity.
  - rewrite maj_or_xor. reflexivity.
  - reflexivity.
Qed.

Lemma sha1_loop_round : forall i, (i < 80)%nat ->
  (if Nat.ltb i 20 then 1 else if Nat.ltb i 40 then 2 else if Nat.ltb i 60 then 3 else 4)%nat = (1 + i / 20)%nat.
Proof.
  intros i Hi. destruct (div20_cases i Hi) as [[? E]|[[? E]|[[? E]|[? E]]]]; rewrite E;
  destruct (Nat.ltb_spec i 20), (Nat.ltb_spec i 40), (Nat.ltb_spec i 60); lia.
Qed.

Ltac w5_inv H :=
  unfold w5 in H; cbn [l5] in H;
  let H1 := fresh in let H2 := fresh in let H3 := fresh in let H4 := fresh in let H5 := fresh in
  inversion_clear H as [|? ? ?Ha H1]; inversion_clear H1 as [|? ? ?Hb H2];
  inversion_clear H2 as [|? ? ?Hc H3]; inversion_clear H3 as [|? ? ?Hd H4];
  inversion_clear H4 as [|? ? ?He H5]; clear H5.

Lemma sha1_step_words : forall X q i, w5 q -> w5 (sha1_step X q i).
Proof.
  intros X [[[[a b] c] d] e] i H. w5_inv H. unfold w5. cbn [sha1_step l5].
  repeat constructor; try assumption; [apply word_plus|]. apply word_ROTL; [assumption|lia].
Qed.

Lemma sha1_loop_step_ok : forall X q i, (i < 80)%nat -> length X = 80%nat -> w5 q ->
  sha1_loop_step X (l5 q) i = Some (l5 (sha1_step X q i)).
Proof.
  intros X [[[[a b] c] d] e] i Hi HX Hq. w5_inv Hq.
  unfold sha1_loop_step. cbn [l5 aget nth_error obind amod aset].
  rewrite sha1_loop_round, sha1_round_ok by assumption. cbn [obind fst snd].
  change (nth_error X i) with (aget X i).
  rewrite (aget_nth _ X i 0) by lia. cbn [obind].
  rewrite !rotl_ROTL by (try assumption; lia). rewrite !uadd_plus.
  rewrite plus_sum5. reflexivity.
Qed.

Definition place5 (r : nat) (q : q5) : list N :=
  let '(a, b, c, d, e) := q in
  match r with
  | 0%nat => [a; b; c; d; e] | 1%nat => [b; c; d; e; a] | 2%nat => [c; d; e; a; b]
  | 3%nat => [d; e; a; b; c] | _ => [e; a; b; c; d]
  end.
Definition idx5 (r : nat) : nat * nat * nat * nat * nat :=
  match r with
  | 0%nat => (0, 1, 2, 3, 4) | 1%nat => (4, 0, 1, 2, 3) | 2%nat => (3, 4, 0, 1, 2)
  | 3%nat => (2, 3, 4, 0, 1) | _ => (1, 2, 3, 4, 0)
  end%nat.
Definition sha1_entry (i : nat) : nat * nat * (nat * nat * nat * nat * nat) :=
  ((1 + i / 20)%nat, i, idx5 (i mod 5)).

Lemma sha1_unfolded_table : sha1_unfolded = map sha1_entry (seq 0 80).
Proof. reflexivity. Qed.

Lemma sha1_macro_ok : forall X q i, (i < 80)%nat -> length X = 80%nat -> w5 q ->
  sha1_macro X (place5 (i mod 5) q) (sha1_entry i) = Some (place5 (S i mod 5) (sha1_step X q i)).
Proof.
  intros X [[[[a b] c] d] e] i Hi HX Hq. w5_inv Hq.
  unfold sha1_macro, sha1_entry.
  assert (Hr : ((i mod 5 = 0 /\ S i mod 5 = 1) \/ (i mod 5 = 1 /\ S i mod 5 = 2) \/
                (i mod 5 = 2 /\ S i mod 5 = 3) \/ (i mod 5 = 3 /\ S i mod 5 = 4) \/
                (i mod 5 = 4 /\ S i mod 5 = 0))%nat).
  { pose proof (Nat.div_mod i 5). pose proof (Nat.mod_upper_bound i 5).
    pose proof (Nat.div_mod (S i) 5). pose proof (Nat.mod_upper_bound (S i) 5). lia. }
  destruct Hr as [[E1 E2]|[[E1 E2]|[[E1 E2]|[[E1 E2]|[E1 E2]]]]]; rewrite E1, E2;
  cbn [place5 idx5 aget nth_error obind amod aset];
  rewrite sha1_round_ok by assumption; cbn [obind aget nth_error amod aset fst snd];
  change (nth_error X i) with (aget X i);
  rewrite (aget_nth _ X i 0) by lia; cbn [obind];
  rewrite !rotl_ROTL by (try assumption; lia); rewrite !uadd_plus;
  rewrite plus_sum5; reflexivity.
Qed.

Lemma sha1_unfolded_ok : forall X q, length X = 80%nat -> w5 q ->
  ofold (sha1_macro X) sha1_unfolded (l5 q) = Some (l5 (fold_left (sha1_step X) (seq 0 80) q)).
Proof.
  intros X q HX Hq. rewrite sha1_unfolded_table.
  assert (G : forall n, (n <= 80)%nat ->
    ofold (sha1_macro X) (map sha1_entry (seq 0 n)) (place5 0 q) = Some (place5 (n mod 5) (fold_left (sha1_step X) (seq 0 n) q))
    /\ w5 (fold_left (sha1_step X) (seq 0 n) q)).
  { induction n; intros Hn; [split; [reflexivity|assumption]|].
    destruct IHn as [I1 I2]; [lia|].
    rewrite seq_snoc, map_app, ofold_app, fold_left_app, I1. cbn [obind ofold map fold_left Nat.add].
    rewrite sha1_macro_ok by (try assumption; lia). cbn [obind].
    split; [reflexivity|]. now apply sha1_step_words. }
  destruct (G 80%nat) as [G1 _]; [lia|].
  replace (l5 q) with (place5 0 q) by (destruct q as [[[[? ?] ?] ?] ?]; reflexivity).
  rewrite G1. change (80 mod 5)%nat with 0%nat.
  destruct (fold_left _ _ _) as [[[[? ?] ?] ?] ?]. reflexivity.
Qed.

Lemma sha1_loop_ok : forall X q, length X = 80%nat -> w5 q ->
  ofold (sha1_loop_step X) (seq 0 80) (l5 q) = Some (l5 (fold_left (sha1_step X) (seq 0 80) q)).
Proof.
  intros X q HX Hq.
  assert (G : forall n, (n <= 80)%nat ->
    ofold (sha1_loop_step X) (seq 0 n) (l5 q) = Some (l5 (fold_left (sha1_step X) (seq 0 n) q))
    /\ w5 (fold_left (sha1_step X) (seq 0 n) q)).
  { induction n; intros Hn; [split; [reflexivity|assumption]|].
    destruct IHn as [I1 I2]; [lia|].
    rewrite seq_snoc, ofold_app, fold_left_app, I1. cbn [obind ofold fold_left Nat.add].
    rewrite sha1_loop_step_ok by (try assumption; lia). cbn [obind].
    split; [reflexivity|]. now apply sha1_step_words. }
  now apply G.
Qed.

(* the words read from a block of bytes *)
Lemma be_words : forall w wb buf off,
  N.of_nat wb * 8 = w -> (0 < wb)%nat -> Forall is_byte buf -> (N.to_nat off + 16 * wb <= length buf)%nat ->
  Forall (word w) (words_at wb be_value buf off 16).
Proof.
  intros w wb buf off Hw Hwb HF Hlen. unfold words_at. apply Forall_map. apply Forall_forall.
  intros i Hi. apply in_seq in Hi. unfold word.
  eapply N.lt_le_trans; [apply be_value_bound; now apply Forall_slice|].
  rewrite slice_length by nia. rewrite pow256, N.mul_comm, Hw. reflexivity.
Qed.

Lemma sha1_block_ok : forall u buf off h values,
  Forall is_byte buf -> (N.to_nat off + 64 <= length buf)%nat ->
  length h = 5%nat -> Forall (word 32) h -> length values = 80%nat ->
  sha1_block u buf off h values =
  Some (off + 64, sha1_compress_l h (slice buf (N.to_nat off) 64),
        sha1_regs h (slice buf (N.to_nat off) 64), sha1_words (slice buf (N.to_nat off) 64)).
Proof.
  intros u buf off h values HF Hlen Hh Hhw Hv.
  set (blk := slice buf (N.to_nat off) 64).
  assert (Hval : forall o, (N.to_nat o + 4 <= length buf)%nat ->
    copy_to_uint 32 order_be32 buf o = Some (be_value (slice buf (N.to_nat o) 4))).
  { intros. rewrite order_be32_seq. apply copy_to_be; try assumption; lia. }
  assert (Hw : words_at 4 be_value buf off 16 = map be_value (pieces 4 blk)).
  { unfold blk. change 64%nat with (16 * 4)%nat. apply words_at_pieces; lia. }
  assert (Hww : Forall (word 32) (map be_value (pieces 4 blk))).
  { rewrite <- Hw. apply be_words; try assumption; lia. }
  assert (Hl : length (map be_value (pieces 4 blk)) = 16%nat).
  { rewrite <- Hw. apply words_at_length. }
  assert (Hl2 : length (sha1_words blk) = 80%nat) by apply schedule_length.
  assert (Hq : w5 (q5_of h)) by (unfold w5; rewrite l5_of; assumption).
  assert (Hadd : add_hash_values 32 5 h (sha1_regs h blk) = Some (sha1_compress_l h blk)).
  { rewrite <- Hh at 1. rewrite add_hash_values_ok.
    - unfold sha1_compress_l, sha1_compress. rewrite sha1_regs_eq. unfold sha1_words.
      rewrite <- (l5_of h Hh) at 1.
      destruct (q5_of h) as [[[[a b] c] d] e]. destruct (fold_left _ _ _) as [[[[a' b'] c'] d'] e'].
      cbn [l5 combine map fst snd].
      rewrite (plus_comm 32 a), (plus_comm 32 b), (plus_comm 32 c), (plus_comm 32 d), (plus_comm 32 e). reflexivity.
    - rewrite sha1_regs_eq. rewrite Hh. destruct (fold_left _ _ _) as [[[[? ?] ?] ?] ?]. reflexivity. }
  pose proof (sha1_extend_ok _ values Hww Hl Hv) as R0.
  rewrite <- sha1_words_eq in R0.
  pose proof (sha1_unfolded_ok _ _ Hl2 Hq) as R1. rewrite (l5_of h Hh) in R1.
  pose proof (sha1_loop_ok _ _ Hl2 Hq) as R2. rewrite (l5_of h Hh) in R2.
  rewrite <- sha1_regs_eq in R1, R2.
  unfold sha1_block. destruct u.
  - change copy_16x_uint32_big with (seq 0 16). change sha1_unfolded_extend with (seq 16 64).
    rewrite (copy_16x_ok 32 4 order_be32 be_value buf) by (try assumption; try reflexivity; lia).
    cbn [obind]. rewrite Hw, R0. cbn [obind]. rewrite R1. cbn [obind]. rewrite Hadd. reflexivity.
  - rewrite (copy_loop_ok 32 4 order_be32 be_value buf) by (try assumption; try reflexivity; lia).
    cbn [obind]. rewrite Hw, R0. cbn [obind]. rewrite R2. cbn [obind]. rewrite Hadd. reflexivity.
Qed.

Lemma sha1_compress_words : forall h block,
  Forall (word 32) (sha1_compress_l h block) /\ length (sha1_compress_l h block) = 5%nat.
Proof.
  intros. unfold sha1_compress_l, sha1_compress.
  destruct (q5_of h) as [[[[a b] c] d] e]. destruct (fold_left _ _ _) as [[[[a' b'] c'] d'] e'].
  split; [|reflexivity]. repeat constructor; apply word_plus.
Qed.
