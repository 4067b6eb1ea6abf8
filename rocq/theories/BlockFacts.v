(* The block bodies of Transform.v compute the compression functions of Spec.v. *)
From Coq Require Import Arith NArith List Lia Bool.
From Verif Require Import Words Spec Tables Transform WordFacts.
Import ListNotations.
Open Scope N_scope.

Arguments N.add : simpl never.
Arguments N.mul : simpl never.
Arguments N.sub : simpl never.
Arguments N.div : simpl never.
Arguments N.modulo : simpl never.
Arguments N.pow : simpl never.
Arguments Nat.div : simpl never.
Arguments Nat.modulo : simpl never.

(* ------------------------------------------------------------- pieces *)

Lemma pieces_from_enough : forall A k (l : list A) f1 f2,
  (0 < k)%nat -> (length l <= f1)%nat -> (length l <= f2)%nat ->
  pieces_from f1 k l = pieces_from f2 k l.
Proof.
  intros A k l f1. revert l. induction f1; intros l f2 Hk H1 H2.
  - destruct l; [|cbn in H1; lia]. destruct f2; reflexivity.
  - destruct f2; cbn [pieces_from].
    + destruct l; [reflexivity|cbn in H2; lia].
    + destruct l as [|x l]; [reflexivity|]. f_equal.
      apply IHf1; [assumption| |]; rewrite skipn_length; cbn [length] in *; lia.
Qed.

Lemma pieces_nil : forall A k, pieces k (@nil A) = [].
Proof. reflexivity. Qed.

Lemma pieces_cons : forall A k (a b : list A), (0 < k)%nat -> length a = k ->
  pieces k (a ++ b) = a :: pieces k b.
Proof.
  intros A k a b Hk Ha. unfold pieces.
  destruct (a ++ b) as [|x l] eqn:E.
  - destruct a; [cbn in Ha; lia|discriminate].
  - cbn [length pieces_from]. rewrite <- E.
    rewrite firstn_app, firstn_all2, Ha, Nat.sub_diag, firstn_O, app_nil_r by lia.
    f_equal. rewrite skipn_app, skipn_all2, Ha, Nat.sub_diag, skipn_O by lia. cbn [app].
    apply pieces_from_enough; [assumption| |reflexivity].
    assert (length (a ++ b) = S (length l)) by now rewrite E.
    rewrite app_length in H. lia.
Qed.

Lemma pieces_one : forall A k (a : list A), (0 < k)%nat -> length a = k -> pieces k a = [a].
Proof.
  intros A k a Hk Ha. rewrite <- (app_nil_r a) at 1. rewrite pieces_cons by assumption. reflexivity.
Qed.

Lemma pieces_app : forall A k n (a b : list A), (0 < k)%nat -> length a = (n * k)%nat ->
  pieces k (a ++ b) = pieces k a ++ pieces k b.
Proof.
  intros A k n. induction n; intros a b Hk Ha; cbn in Ha.
  - destruct a; [reflexivity|discriminate].
  - assert (Hf : length (firstn k a) = k) by (rewrite firstn_length; lia).
    rewrite <- (firstn_skipn k a), <- app_assoc.
    rewrite (pieces_cons _ k (firstn k a) (skipn k a ++ b)) by assumption.
    rewrite (pieces_cons _ k (firstn k a) (skipn k a)) by assumption.
    cbn [app]. f_equal. apply IHn; [assumption|]. rewrite skipn_length. lia.
Qed.

Lemma skipn_skipn' : forall A (l : list A) a b, skipn a (skipn b l) = skipn (b + a) l.
Proof.
  induction l; intros a' b; [now rewrite !skipn_nil|].
  destruct b; [reflexivity|]. cbn [skipn Nat.add]. apply IHl.
Qed.

Lemma slice_app : forall A (l : list A) off m n, slice l off (m + n) = slice l off m ++ slice l (off + m) n.
Proof.
  intros. unfold slice. rewrite <- skipn_skipn'.
  generalize (skipn off l). clear. intros l. revert l. induction m; intros l; [reflexivity|].
  destruct l; [now rewrite skipn_nil, !firstn_nil|]. cbn [Nat.add firstn skipn app]. now rewrite IHm.
Qed.

Lemma pieces_slice : forall A k n (l : list A) off, (0 < k)%nat -> (off + n * k <= length l)%nat ->
  pieces k (slice l off (n * k)) = map (fun i => slice l (off + i * k) k) (seq 0 n).
Proof.
  intros A k n. induction n; intros l off Hk Hlen.
  - reflexivity.
  - cbn [Nat.mul]. rewrite slice_app. rewrite pieces_cons by (try apply slice_length; lia).
    rewrite IHn by lia. cbn [seq map]. rewrite Nat.add_0_r. f_equal.
    rewrite <- seq_shift, map_map. apply map_ext. intro i. f_equal. lia.
Qed.

(* ------------------------------------------------- reading 16 words *)

Lemma aset_step : forall (l1 : list N) n v values, length l1 = n -> (n < length values)%nat ->
  aset (l1 ++ skipn n values) n v = Some ((l1 ++ [v]) ++ skipn (S n) values).
Proof.
  intros l1 n v values H1 H2. rewrite aset_ok.
  - f_equal. rewrite <- H1. rewrite firstn_app, Nat.sub_diag, firstn_O, app_nil_r, firstn_all.
    rewrite <- app_assoc. cbn [app]. do 2 f_equal.
    rewrite skipn_app. rewrite skipn_all2 by lia. cbn [app].
    replace (S (length l1) - length l1)%nat with 1%nat by lia.
    rewrite skipn_skipn'. f_equal. lia.
  - rewrite app_length, skipn_length. lia.
Qed.

Section Words16.
  Variables (w : N) (wb : nat) (order : list N) (val : list N -> N) (buf : list N).
  Hypothesis Hwb : N.of_nat wb = w / 8.
  Hypothesis Hwb0 : (0 < wb)%nat.
  Hypothesis Hval : forall off, (N.to_nat off + wb <= length buf)%nat ->
    copy_to_uint w order buf off = Some (val (slice buf (N.to_nat off) wb)).

  Definition words_at (off : N) (n : nat) : list N :=
    map (fun i => val (slice buf (N.to_nat off + i * wb) wb)) (seq 0 n).

  Lemma words_at_length : forall off n, length (words_at off n) = n.
  Proof. intros. unfold words_at. now rewrite map_length, seq_length. Qed.

  Lemma words_at_snoc : forall off n,
    words_at off (S n) = words_at off n ++ [val (slice buf (N.to_nat off + n * wb) wb)].
  Proof. intros. unfold words_at. rewrite seq_snoc, map_app. reflexivity. Qed.

  Lemma copy_16x_ok : forall off values n,
    (n <= 16)%nat -> (16 <= length values)%nat -> (N.to_nat off + 16 * wb <= length buf)%nat ->
    copy_16x w order (seq 0 n) buf off values = Some (words_at off n ++ skipn n values).
  Proof.
    intros off values n. induction n; intros Hn Hv Hb; [reflexivity|].
    unfold copy_16x in *. rewrite seq_snoc, ofold_app, IHn by lia. cbn [obind ofold Nat.add].
    rewrite <- Hwb.
    rewrite Hval by nia. cbn [obind].
    rewrite aset_step; [|apply words_at_length|lia]. cbn [obind].
    rewrite words_at_snoc. do 4 f_equal. f_equal. f_equal. nia.
  Qed.

  Lemma copy_loop_ok' : forall off values n,
    (n <= 16)%nat -> (16 <= length values)%nat -> (N.to_nat off + 16 * wb <= length buf)%nat ->
    ofold (fun st i =>
           let '(off, vals) := st in
           v <-? copy_to_uint w order buf off;
           vals' <-? aset vals i v;
           Some (off + w / 8, vals')) (seq 0 n) (off, values)
    = Some (off + N.of_nat n * N.of_nat wb, words_at off n ++ skipn n values).
  Proof.
    intros off values n. induction n; intros Hn Hv Hb.
    - cbn [seq ofold]. do 2 f_equal. lia.
    - rewrite seq_snoc, ofold_app, IHn by lia. cbn [obind ofold Nat.add].
      rewrite Hval by nia. cbn [obind].
      rewrite aset_step; [|apply words_at_length|lia]. cbn [obind].
      rewrite words_at_snoc, <- Hwb. do 2 f_equal; [lia|]. do 3 f_equal. f_equal. f_equal. nia.
  Qed.

  Lemma copy_loop_ok : forall off values,
    (16 <= length values)%nat -> (N.to_nat off + 16 * wb <= length buf)%nat ->
    copy_loop w order buf off values = Some (off + 16 * N.of_nat wb, words_at off 16 ++ skipn 16 values).
  Proof. intros. unfold copy_loop. now rewrite copy_loop_ok' by lia. Qed.

  Lemma words_at_pieces : forall off, (N.to_nat off + 16 * wb <= length buf)%nat ->
    words_at off 16 = map val (pieces wb (slice buf (N.to_nat off) (16 * wb))).
  Proof. intros. unfold words_at. rewrite pieces_slice by assumption. now rewrite map_map. Qed.
End Words16.

(* ------------------------------------------------------ final addition *)

Lemma add_hash_values_ok : forall w (ch hv : list N),
  length ch = length hv ->
  add_hash_values w (length ch) ch hv = Some (map (fun p => plus w (fst p) (snd p)) (combine ch hv)).
Proof.
  intros w ch hv Hlen. unfold add_hash_values.
  assert (G : forall n, (n <= length ch)%nat ->
    ofold (fun ch i => x <-? aget hv i; amod ch i (fun y => uadd w y x)) (seq 0 n) ch
    = Some (firstn n (map (fun p => plus w (fst p) (snd p)) (combine ch hv)) ++ skipn n ch)).
  { induction n; intros Hn; [reflexivity|].
    rewrite seq_snoc, ofold_app, IHn by lia. cbn [obind ofold Nat.add].
    rewrite (aget_nth _ hv n 0) by lia. cbn [obind]. unfold amod.
    set (m := map (fun p => plus w (fst p) (snd p)) (combine ch hv)).
    assert (Hm : length m = length ch) by (unfold m; rewrite map_length, combine_length; lia).
    assert (Hfm : length (firstn n m) = n) by (rewrite firstn_length; lia).
    assert (Hget : aget (firstn n m ++ skipn n ch) n = Some (nth n ch 0)).
    { rewrite (aget_nth _ _ n 0) by (rewrite app_length, skipn_length; lia).
      rewrite app_nth2 by lia. rewrite Hfm, Nat.sub_diag. f_equal.
      rewrite <- (firstn_skipn n ch) at 2. rewrite app_nth2 by (rewrite firstn_length; lia).
      rewrite firstn_length, Nat.min_l, Nat.sub_diag by lia. reflexivity. }
    rewrite Hget. cbn [obind]. rewrite aset_step by (try assumption; lia). cbn [obind].
    do 2 f_equal.
    assert (E : firstn (S n) m = firstn n m ++ [nth n m 0]).
    { clear -Hm Hn. revert n Hn Hm. generalize (length ch). intros k n Hn Hm.
      revert n Hn. revert k Hm. induction m; intros k Hm n Hn; cbn in Hm; [lia|].
      destruct n; [reflexivity|]. cbn [firstn nth app]. f_equal. destruct k; [lia|]. apply (IHm k); lia. }
    rewrite E. do 2 f_equal. unfold m.
    rewrite (nth_indep (map _ _) 0 (plus w 0 0)) by (fold m; lia).
    pose proof (map_nth (fun p : N * N => plus w (fst p) (snd p)) (combine ch hv) (0, 0) n) as E2.
    cbn [fst snd] in E2. rewrite E2, combine_nth by assumption. reflexivity. }
  rewrite G by lia. f_equal.
  rewrite firstn_all2 by (rewrite map_length, combine_length; lia).
  rewrite skipn_all. apply app_nil_r.
Qed.

(* ----------------------------------------------------------------- MD5 *)

Definition l4 (q : q4) : list N := let '(a, b, c, d) := q in [a; b; c; d].
Definition q4_of (l : list N) : q4 := (nth 0 l 0, nth 1 l 0, nth 2 l 0, nth 3 l 0).
Definition w4 (q : q4) : Prop := Forall (word 32) (l4 q).

Lemma md5_tables :
  md5_values_32bit_index = map md5_word (seq 0 64) /\
  map N.of_nat md5_bit_shifts = map md5_shift (seq 0 64) /\ md5_sines = md5_T.
Proof. repeat split. Qed.

Lemma aget_map_seq : forall A (f : nat -> A) n i, (i < n)%nat -> aget (map f (seq 0 n)) i = Some (f i).
Proof.
  intros. unfold aget. rewrite nth_error_map.
  rewrite (nth_error_nth' _ 0%nat) by (rewrite seq_length; lia).
  rewrite seq_nth by assumption. reflexivity.
Qed.

Lemma aget_md5_shift : forall i, (i < 64)%nat -> exists s, aget md5_bit_shifts i = Some s /\ N.of_nat s = md5_shift i.
Proof.
  intros i H. destruct md5_tables as [_ [E _]].
  pose proof (aget_map_seq _ md5_shift 64 i H) as G. rewrite <- E in G.
  unfold aget in *. rewrite nth_error_map in G.
  destruct (nth_error md5_bit_shifts i) as [s|]; [|discriminate]. exists s. split; [reflexivity|].
  apply (f_equal (fun o => match o with Some x => x | None => 0 end)) in G. exact G.
Qed.
Lemma aget_md5_sine : forall i, (i < 64)%nat -> aget md5_sines i = Some (nth i md5_T 0).
Proof. intros i H. destruct md5_tables as [_ [_ E]]. rewrite E. now apply aget_nth. Qed.
Lemma aget_md5_index : forall i, (i < 64)%nat -> aget md5_values_32bit_index i = Some (md5_word i).
Proof. intros i H. destruct md5_tables as [E _]. rewrite E. now apply aget_map_seq. Qed.

Lemma div16_cases : forall i, (i < 64)%nat ->
  ((i < 16 /\ i / 16 = 0) \/ (16 <= i < 32 /\ i / 16 = 1) \/ (32 <= i < 48 /\ i / 16 = 2) \/ (48 <= i /\ i / 16 = 3))%nat.
Proof.
  intros i H. pose proof (Nat.div_mod i 16). pose proof (Nat.mod_upper_bound i 16). lia.
Qed.

Lemma md5_word_lt : forall i, (i < 64)%nat -> (md5_word i < 16)%nat.
Proof.
  intros i H. unfold md5_word. destruct (div16_cases i H) as [[? E]|[[? E]|[[? E]|[? E]]]]; rewrite E;
    [assumption|apply Nat.mod_upper_bound; lia..].
Qed.

Lemma md5_shift_le : forall i, (i < 64)%nat -> md5_shift i <= 32.
Proof.
  assert (G : forallb (fun i => md5_shift i <=? 32) (seq 0 64) = true) by reflexivity.
  intros i H. rewrite forallb_forall in G. apply N.leb_le. apply G. apply in_seq. lia.
Qed.

Lemma md5_round_ok : forall i b c d, (i < 64)%nat -> word 32 b -> word 32 c -> word 32 d ->
  md5_round_fun (1 + i / 16)%nat b c d = Some (md5_fun i b c d).
Proof.
  intros i b c d Hi Hb Hc Hd. unfold md5_fun.
  destruct (div16_cases i Hi) as [[? E]|[[? E]|[[? E]|[? E]]]]; rewrite E; cbn [Nat.add md5_round_fun];
    unfold md5_F, md5_G, md5_H, md5_I; rewrite ?unot_complement by assumption; reflexivity.
Qed.

Lemma md5_loop_round : forall i, (i < 64)%nat ->
  (if Nat.ltb i 16 then 1 else if Nat.ltb i 32 then 2 else if Nat.ltb i 48 then 3 else 4)%nat = (1 + i / 16)%nat.
Proof.
  intros i Hi. destruct (div16_cases i Hi) as [[? E]|[[? E]|[[? E]|[? E]]]]; rewrite E;
  destruct (Nat.ltb_spec i 16), (Nat.ltb_spec i 32), (Nat.ltb_spec i 48); lia.
Qed.

Lemma md5_step_words : forall X q i, w4 q -> w4 (md5_step X q i).
Proof.
  intros X [[[a b] c] d] i H. unfold w4 in *. cbn in *.
  inversion_clear H as [|? ? Ha H1]. inversion_clear H1 as [|? ? Hb H2].
  inversion_clear H2 as [|? ? Hc H3]. inversion_clear H3 as [|? ? Hd H4].
  repeat constructor; try assumption. apply word_plus.
Qed.

Ltac w4_inv H :=
  unfold w4 in H; cbn [l4] in H;
  let H1 := fresh in let H2 := fresh in let H3 := fresh in let H4 := fresh in
  inversion_clear H as [|? ? ?Ha H1]; inversion_clear H1 as [|? ? ?Hb H2];
  inversion_clear H2 as [|? ? ?Hc H3]; inversion_clear H3 as [|? ? ?Hd H4]; clear H4.

Lemma md5_loop_step_ok : forall X q i, (i < 64)%nat -> length X = 16%nat -> w4 q ->
  md5_loop_step X (l4 q) i = Some (l4 (md5_step X q i)).
Proof.
  intros X [[[a b] c] d] i Hi HX Hq. w4_inv Hq.
  unfold md5_loop_step. cbn [l4 aget nth_error obind amod aset].
  rewrite md5_loop_round, md5_round_ok, aget_md5_index by assumption. cbn [obind].
  pose proof (md5_word_lt i Hi).
  change (nth_error X (md5_word i)) with (aget X (md5_word i)).
  rewrite (aget_nth _ X (md5_word i) 0) by lia. cbn [obind].
  rewrite aget_md5_sine by assumption. cbn [obind].
  destruct (aget_md5_shift i Hi) as [s [Es Hs]]. rewrite Es. cbn [obind].
  rewrite Hs, rotl_ROTL by (try apply word_uadd; now apply md5_shift_le).
  reflexivity.
Qed.

(* position of the registers in the unrolled code: after r rotations *)
Definition place4 (r : nat) (q : q4) : list N :=
  let '(a, b, c, d) := q in
  match r with
  | 0%nat => [a; b; c; d] | 1%nat => [b; c; d; a] | 2%nat => [c; d; a; b] | _ => [d; a; b; c]
  end.
Definition idx4 (r : nat) : nat * nat * nat * nat :=
  match r with
  | 0%nat => (0, 1, 2, 3) | 1%nat => (3, 0, 1, 2) | 2%nat => (2, 3, 0, 1) | _ => (1, 2, 3, 0)
  end%nat.
Definition md5_entry (i : nat) : nat * nat * (nat * nat * nat * nat) * nat :=
  ((1 + i / 16)%nat, md5_word i, idx4 (i mod 4), i).

Lemma md5_unfolded_table : md5_unfolded = map md5_entry (seq 0 64).
Proof. reflexivity. Qed.

Lemma md5_macro_ok : forall X q i, (i < 64)%nat -> length X = 16%nat -> w4 q ->
  md5_macro X (place4 (i mod 4) q) (md5_entry i) = Some (place4 (S i mod 4) (md5_step X q i)).
Proof.
  intros X [[[a b] c] d] i Hi HX Hq. w4_inv Hq.
  unfold md5_macro, md5_entry.
  pose proof (md5_word_lt i Hi).
  assert (Hr : ((i mod 4 = 0 /\ S i mod 4 = 1) \/ (i mod 4 = 1 /\ S i mod 4 = 2) \/
                (i mod 4 = 2 /\ S i mod 4 = 3) \/ (i mod 4 = 3 /\ S i mod 4 = 0))%nat).
  { pose proof (Nat.div_mod i 4). pose proof (Nat.mod_upper_bound i 4).
    pose proof (Nat.div_mod (S i) 4). pose proof (Nat.mod_upper_bound (S i) 4). lia. }
  destruct (aget_md5_shift i Hi) as [s [Es Hs]].
  destruct Hr as [[E1 E2]|[[E1 E2]|[[E1 E2]|[E1 E2]]]]; rewrite E1, E2;
  cbn [place4 idx4 aget nth_error obind amod aset];
  rewrite md5_round_ok by assumption; cbn [obind aget nth_error amod aset];
  change (nth_error X (md5_word i)) with (aget X (md5_word i));
  rewrite (aget_nth _ X (md5_word i) 0) by lia; cbn [obind];
  change (nth_error md5_sines i) with (aget md5_sines i);
  rewrite aget_md5_sine by assumption; cbn [obind];
  change (nth_error md5_bit_shifts i) with (aget md5_bit_shifts i);
  rewrite Es; cbn [obind];
  rewrite Hs, rotl_ROTL by (try apply word_uadd; now apply md5_shift_le);
  cbn [md5_step place4];
  rewrite uadd_plus, plus_comm; reflexivity.
Qed.

Lemma md5_unfolded_ok : forall X q, length X = 16%nat -> w4 q ->
  ofold (md5_macro X) md5_unfolded (l4 q) = Some (l4 (fold_left (md5_step X) (seq 0 64) q)).
Proof.
  intros X q HX Hq. rewrite md5_unfolded_table.
  assert (G : forall n, (n <= 64)%nat ->
    ofold (md5_macro X) (map md5_entry (seq 0 n)) (place4 0 q) = Some (place4 (n mod 4) (fold_left (md5_step X) (seq 0 n) q))
    /\ w4 (fold_left (md5_step X) (seq 0 n) q)).
  { induction n; intros Hn; [split; [reflexivity|assumption]|].
    destruct IHn as [I1 I2]; [lia|].
    rewrite seq_snoc, map_app, ofold_app, fold_left_app, I1. cbn [obind ofold map fold_left Nat.add].
    rewrite md5_macro_ok by (try assumption; lia). cbn [obind].
    split; [reflexivity|]. now apply md5_step_words. }
  destruct (G 64%nat) as [G1 _]; [lia|].
  replace (l4 q) with (place4 0 q) by (destruct q as [[[? ?] ?] ?]; reflexivity).
  rewrite G1. change (64 mod 4)%nat with 0%nat.
  destruct (fold_left _ _ _) as [[[? ?] ?] ?]. reflexivity.
Qed.

Lemma md5_loop_ok : forall X q, length X = 16%nat -> w4 q ->
  ofold (md5_loop_step X) (seq 0 64) (l4 q) = Some (l4 (fold_left (md5_step X) (seq 0 64) q)).
Proof.
  intros X q HX Hq.
  assert (G : forall n, (n <= 64)%nat ->
    ofold (md5_loop_step X) (seq 0 n) (l4 q) = Some (l4 (fold_left (md5_step X) (seq 0 n) q))
    /\ w4 (fold_left (md5_step X) (seq 0 n) q)).
  { induction n; intros Hn; [split; [reflexivity|assumption]|].
    destruct IHn as [I1 I2]; [lia|].
    rewrite seq_snoc, ofold_app, fold_left_app, I1. cbn [obind ofold fold_left Nat.add].
    rewrite md5_loop_step_ok by (try assumption; lia). cbn [obind].
    split; [reflexivity|]. now apply md5_step_words. }
  now apply G.
Qed.

Definition md5_compress_l (h block : list N) : list N := l4 (md5_compress (q4_of h) block).

Lemma l4_of : forall h, length h = 4%nat -> l4 (q4_of h) = h.
Proof. intros h H. do 5 (destruct h as [|? h]; try discriminate). reflexivity. Qed.

(* the 16 words of a block and the final registers *)
Definition md5_words (block : list N) : list N := map le_value (pieces 4 block).
Definition md5_regs (h block : list N) : list N := l4 (fold_left (md5_step (md5_words block)) (seq 0 64) (q4_of h)).

Lemma md5_regs_eq : forall h block,
  md5_regs h block = l4 (fold_left (md5_step (md5_words block)) (seq 0 64) (q4_of h)).
Proof. intros. unfold md5_regs. reflexivity. Qed.

Lemma md5_block_ok : forall u buf off h values,
  Forall is_byte buf -> (N.to_nat off + 64 <= length buf)%nat ->
  length h = 4%nat -> Forall (word 32) h -> length values = 16%nat ->
  md5_block u buf off h values =
  Some (off + 64, md5_compress_l h (slice buf (N.to_nat off) 64),
        md5_regs h (slice buf (N.to_nat off) 64), md5_words (slice buf (N.to_nat off) 64)).
Proof.
  intros u buf off h values HF Hlen Hh Hhw Hv.
  assert (Hval : forall o, (N.to_nat o + 4 <= length buf)%nat ->
    copy_to_uint 32 order_le32 buf o = Some (le_value (slice buf (N.to_nat o) 4))).
  { intros. now apply copy_to_le32. }
  assert (Hw : words_at 4 le_value buf off 16 = md5_words (slice buf (N.to_nat off) 64)).
  { unfold md5_words. change 64%nat with (16 * 4)%nat. apply words_at_pieces; lia. }
  assert (Hl : length (md5_words (slice buf (N.to_nat off) 64)) = 16%nat).
  { rewrite <- Hw. apply words_at_length. }
  assert (Hq : w4 (q4_of h)) by (unfold w4; rewrite l4_of; assumption).
  assert (Hadd : add_hash_values 32 4 h (md5_regs h (slice buf (N.to_nat off) 64)) =
                 Some (md5_compress_l h (slice buf (N.to_nat off) 64))).
  { rewrite <- Hh at 1. rewrite add_hash_values_ok.
    - unfold md5_compress_l, md5_compress, md5_regs, md5_words.
      rewrite <- (l4_of h Hh) at 1.
      destruct (q4_of h) as [[[a b] c] d]. destruct (fold_left _ _ _) as [[[a' b'] c'] d']. reflexivity.
    - unfold md5_regs. rewrite Hh. destruct (fold_left _ _ _) as [[[? ?] ?] ?]. reflexivity. }
  pose proof (md5_unfolded_ok _ _ Hl Hq) as R1. rewrite (l4_of h Hh) in R1.
  pose proof (md5_loop_ok _ _ Hl Hq) as R2. rewrite (l4_of h Hh) in R2.
  rewrite <- md5_regs_eq in R1, R2.
  unfold md5_block. destruct u.
  - change copy_16x_uint32_little with (seq 0 16).
    rewrite (copy_16x_ok 32 4 order_le32 le_value buf) by (try assumption; try reflexivity; lia).
    cbn [obind]. rewrite Hw, skipn_all2, app_nil_r by lia.
    rewrite R1. cbn [obind]. rewrite Hadd. reflexivity.
  - rewrite (copy_loop_ok 32 4 order_le32 le_value buf) by (try assumption; try reflexivity; lia).
    cbn [obind]. rewrite Hw, skipn_all2, app_nil_r by lia.
    rewrite R2. cbn [obind]. rewrite Hadd. reflexivity.
Qed.

Lemma md5_compress_words : forall h block, Forall (word 32) (md5_compress_l h block) /\ length (md5_compress_l h block) = 4%nat.
Proof.
  intros. unfold md5_compress_l, md5_compress.
  destruct (q4_of h) as [[[a b] c] d]. destruct (fold_left _ _ _) as [[[a' b'] c'] d'].
  split; [|reflexivity]. repeat constructor; apply word_plus.
Qed.
