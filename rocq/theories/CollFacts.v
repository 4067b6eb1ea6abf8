(* Equal digests: where the two computations meet. *)
From Coq Require Import Arith NArith ZArith List Bool Lia.
From Verif Require Import Words Spec Transform Machine Context WordFacts BlockFacts ShaFacts Sha2Facts MachineFacts TransformFacts DigestFacts ReprFacts
  Vocab HmacFacts HistoryFacts LibProofs LibTheorems Hash CollVocab.
Import ListNotations.
Open Scope N_scope.

(* ------------------------------------------------------------- pieces *)

Lemma pieces_exact : forall A k n (l : list A), (0 < k)%nat -> length l = (n * k)%nat ->
  Forall (fun p => length p = k) (pieces k l) /\ concat (pieces k l) = l /\ length (pieces k l) = n.
Proof.
  intros A k n. induction n; intros l Hk Hl; cbn in Hl.
  - destruct l; [|discriminate]. rewrite pieces_nil. repeat split. constructor.
  - assert (Hf : length (firstn k l) = k) by (rewrite firstn_length; lia).
    rewrite <- (firstn_skipn k l). rewrite pieces_cons by assumption.
    destruct (IHn (skipn k l) Hk) as (F & C & L); [rewrite skipn_length; lia|].
    split; [constructor; assumption|]. split; [cbn [concat]; now rewrite C|]. cbn [length]. now rewrite L.
Qed.

(* ------------------------------------------------------------- the two chains *)

Section Walk.
  Variables (S B : Type) (f : S -> B -> S) (iv : S).
  Hypothesis S_dec : forall x y : S, {x = y} + {x <> y}.
  Hypothesis B_dec : forall x y : B, {x = y} + {x <> y}.
  Notation ch l := (fold_left f l iv).

  Definition meet (l1 l2 : list B) : Prop :=
    exists i j x y, nth_error l1 i = Some x /\ nth_error l2 j = Some y /\ (ch (firstn i l1) <> ch (firstn j l2) \/ x <> y) /\
    f (ch (firstn i l1)) x = f (ch (firstn j l2)) y /\ (length l1 = length l2 -> i = j).
  Definition again (l : list B) : Prop := exists i, (0 < i <= length l)%nat /\ ch (firstn i l) = iv.

  Lemma firstn_snoc : forall (l : list B) x i, (i <= length l)%nat -> firstn i (l ++ [x]) = firstn i l.
  Proof. intros l x i H. rewrite firstn_app. replace (i - length l)%nat with 0%nat by lia. cbn [firstn]. apply app_nil_r. Qed.
  Lemma again_snoc : forall l x, again l -> again (l ++ [x]).
  Proof. intros l x (i & Hi & H). exists i. split; [rewrite app_length; lia|]. now rewrite firstn_snoc. Qed.
  Lemma meet_snoc : forall l1 l2 x y, meet l1 l2 -> meet (l1 ++ [x]) (l2 ++ [y]).
  Proof.
    intros l1 l2 x y (i & j & u & v & Hi & Hj & N1 & Q & L). exists i, j, u, v.
    pose proof (nth_error_Some l1 i) as [A _]. pose proof (nth_error_Some l2 j) as [C _].
    assert (Li : (i < length l1)%nat) by (apply A; congruence). assert (Lj : (j < length l2)%nat) by (apply C; congruence).
    rewrite !nth_error_app1 by assumption. rewrite !firstn_snoc by lia. split; [exact Hi|]. split; [exact Hj|]. split; [exact N1|]. split; [exact Q|].
    rewrite !app_length. cbn. intros. apply L. lia.
  Qed.

  Lemma walk : forall l1 l2, ch l1 = ch l2 -> l1 = l2 \/ meet l1 l2 \/ (length l1 <> length l2 /\ (again l1 \/ again l2)).
  Proof.
    induction l1 as [|x l1 IH] using rev_ind; intros l2 Q.
    - destruct l2 as [|y l2]; [now left|]. right. right. split; [discriminate|]. right.
      exists (length (y :: l2)). split; [cbn; lia|]. rewrite firstn_all. symmetry. exact Q.
    - destruct l2 as [|y0 l0].
      { right. right. split; [rewrite app_length; cbn; lia|]. left. exists (length (l1 ++ [x])). split; [rewrite app_length; cbn; lia|]. rewrite firstn_all. exact Q. }
      destruct (@exists_last _ (y0 :: l0) ltac:(discriminate)) as (l2 & y & Hl). rewrite Hl in *. clear Hl y0 l0.
      rewrite !fold_left_app in Q. cbn [fold_left] in Q.
      assert (Meet : ch l1 <> ch l2 \/ x <> y -> meet (l1 ++ [x]) (l2 ++ [y])).
      { intros D. exists (length l1), (length l2), x, y. rewrite !nth_error_app2, !Nat.sub_diag by lia. rewrite !firstn_snoc, !firstn_all by lia.
        split; [reflexivity|]. split; [reflexivity|]. split; [exact D|]. split; [exact Q|]. rewrite !app_length. cbn. lia. }
      destruct (S_dec (ch l1) (ch l2)) as [E|N1]; [|right; left; apply Meet; now left].
      destruct (B_dec x y) as [<-|N1]; [|right; left; apply Meet; now right].
      destruct (IH l2 E) as [->|[M|(L & A)]]; [now left|right; left; now apply meet_snoc|].
      right. right. split; [rewrite !app_length; cbn; lia|]. destruct A as [A|A]; [left|right]; now apply again_snoc.
  Qed.
End Walk.

(* ------------------------------------------------------------- padding *)

Lemma app_same_length : forall A (u v u' v' : list A), length u = length u' -> u ++ v = u' ++ v' -> u = u' /\ v = v'.
Proof.
  intros A u. induction u as [|x u IH]; intros v [|y u'] v' L H; try discriminate; [now split|]. injection H as -> H. injection L as L.
  destruct (IH v u' v' L H) as (-> & ->). now split.
Qed.

Lemma padded_split : forall b f g m, padded b f g m = (m ++ 128 :: repeat 0 (N.to_nat (zero_bytes b f (N.of_nat (length m))))) ++ g (8 * N.of_nat (length m)).
Proof. intros. unfold padded. cbv zeta. cbn [app]. rewrite <- app_assoc. cbn [app]. reflexivity. Qed.

Lemma padded_length : forall b f g m, 0 < b -> length (g (8 * N.of_nat (length m))) = N.to_nat f ->
  exists n, length (padded b f g m) = (n * N.to_nat b)%nat /\ (0 < n)%nat.
Proof.
  intros b f g m Hb Hg. set (t := N.of_nat (length m) + 1 + f). set (z := zero_bytes b f (N.of_nat (length m))).
  assert (Z : (t + z) mod b = 0).
  { unfold z, zero_bytes. fold t. pose proof (N.mod_lt t b ltac:(lia)). rewrite N.add_mod_idemp_r by lia.
    rewrite <- N.add_mod_idemp_l by lia. replace (t mod b + (b - t mod b)) with b by lia. apply N.mod_same. lia. }
  apply N.mod_divide in Z; [|lia]. destruct Z as (n & Hn). exists (N.to_nat n).
  assert (L : length (padded b f g m) = N.to_nat (t + z)).
  { rewrite padded_split, !app_length, Hg. cbn [length]. rewrite repeat_length. fold z. unfold t. lia. }
  split; [rewrite L, Hn; lia|]. destruct n; [|lia]. unfold t in Hn. lia.
Qed.

Lemma strip_zeros : forall m1 m2 z1 z2, m1 ++ 128 :: repeat 0 z1 = m2 ++ 128 :: repeat 0 z2 -> m1 = m2.
Proof.
  intros m1 m2 z1 z2 H. apply (f_equal (@rev N)) in H. rewrite !rev_app_distr in H. cbn [rev] in H.
  assert (R : forall z, rev (repeat 0 z) = repeat 0 z).
  { induction z; [reflexivity|]. cbn [repeat rev]. rewrite IHz. symmetry. apply (repeat_cons z 0). }
  rewrite !R, <- !app_assoc in H. cbn [app] in H. revert z2 H. induction z1; intros [|z2] H; cbn [repeat app] in H.
  - injection H as H. rewrite <- (rev_involutive m1), H. apply rev_involutive.
  - discriminate.
  - discriminate.
  - injection H as H. now apply (IHz1 z2).
Qed.

Definition pad (a : algid) (m : list N) : list N := code_padded a 0 m.
Lemma field_lt : forall a, (field a <= bsz a)%nat.
Proof. destruct a; vm_compute; lia. Qed.
Lemma bsz_pos : forall a, (0 < bsz a)%nat.
Proof. destruct a; vm_compute; lia. Qed.
Lemma pad_length : forall a m, exists n, length (pad a m) = (n * bsz a)%nat /\ (0 < n)%nat.
Proof.
  intros a m. unfold pad, code_padded. apply padded_length; [destruct a; reflexivity|]. rewrite word_bytes_length. lia.
Qed.
Lemma pad_blocks : forall a m, exists l x, pieces (bsz a) (pad a m) = l ++ [x] /\ length x = bsz a /\
  firstn (field a) (rev x) = rev (word_bytes a (field a) ((8 * N.of_nat (length m)) mod 2 ^ 64)) /\ concat (l ++ [x]) = pad a m.
Proof.
  intros a m. destruct (pad_length a m) as (n & L & P). destruct (pieces_exact _ (bsz a) n (pad a m) (bsz_pos a) L) as (F & C & K).
  destruct (@exists_last _ (pieces (bsz a) (pad a m))) as (l & x & Q). { intros Z. rewrite Z in K. cbn in K. lia. }
  exists l, x. split; [exact Q|]. rewrite Q in F, C. apply Forall_app in F as [_ F]. inversion F as [|? ? Lx _]; subst. split; [exact Lx|]. split; [|exact C].
  rewrite concat_app in C. cbn [concat] in C. rewrite app_nil_r in C.
  assert (R : firstn (field a) (rev (pad a m)) = firstn (field a) (rev x)).
  { rewrite <- C, rev_app_distr, firstn_app, rev_length, Lx. pose proof (field_lt a). replace (field a - bsz a)%nat with 0%nat by lia. cbn [firstn]. apply app_nil_r. }
  rewrite <- R. unfold pad, code_padded. rewrite padded_split, rev_app_distr, firstn_app, rev_length, word_bytes_length, Nat.sub_diag. cbn [firstn].
  rewrite app_nil_r, firstn_all2 by (rewrite rev_length, word_bytes_length; lia). rewrite N.mul_0_r, N.add_0_l. reflexivity.
Qed.

Lemma word_bytes_value : forall a n v w, v < 256 ^ N.of_nat n -> w < 256 ^ N.of_nat n -> word_bytes a n v = word_bytes a n w -> v = w.
Proof.
  intros a n v w Hv Hw. unfold word_bytes, be_bytes. destruct (a_big (alg_of a)); intros H; [|now apply (le_bytes_value n)].
  apply (f_equal (@rev N)) in H. rewrite !rev_involutive in H. now apply (le_bytes_value n).
Qed.
Lemma field_value : forall a v w, v < 2 ^ 64 -> w < 2 ^ 64 -> word_bytes a (field a) v = word_bytes a (field a) w -> v = w.
Proof.
  intros a v w Hv Hw H. assert (L : 2 ^ 64 <= 256 ^ N.of_nat (field a)) by (destruct a; vm_compute; discriminate).
  apply (word_bytes_value a (field a)); [lia|lia|exact H].
Qed.

Lemma pad_injective : forall a m1 m2, pad a m1 = pad a m2 -> m1 = m2.
Proof.
  intros a m1 m2 H. unfold pad, code_padded in H. rewrite !padded_split in H.
  assert (L : forall (u v u' v' : list N), length v = length v' -> u ++ v = u' ++ v' -> u = u').
  { intros u v u' v' L Q. assert (K : length u = length u') by (apply (f_equal (@length N)) in Q; rewrite !app_length in Q; lia).
    now apply app_same_length in Q. }
  apply L in H; [|now rewrite !word_bytes_length]. exact (strip_zeros _ _ _ _ H).
Qed.

(* ------------------------------------------------------------- digests *)

Lemma digest_bytes_words : forall a h1 h2, hash_ok a h1 -> hash_ok a h2 -> digest_bytes a h1 = digest_bytes a h2 ->
  firstn (a_outw (alg_of a)) h1 = firstn (a_outw (alg_of a)) h2.
Proof.
  intros a h1 h2 (L1 & F1) (L2 & F2) H. unfold digest_bytes in H. pose proof (outw_le a).
  assert (K1 : length (firstn (a_outw (alg_of a)) h1) = a_outw (alg_of a)) by (rewrite firstn_length; lia).
  assert (K2 : length (firstn (a_outw (alg_of a)) h2) = a_outw (alg_of a)) by (rewrite firstn_length; lia).
  assert (FF : forall n (l : list N), Forall (word (wd a)) l -> Forall (word (wd a)) (firstn n l)).
  { clear. induction n; intros l F; [constructor|]. destruct l; [constructor|]. inversion F; subst. cbn [firstn]. constructor; auto. }
  apply (FF (a_outw (alg_of a))) in F1. apply (FF (a_outw (alg_of a))) in F2. clear FF.
  set (x := firstn _ h1) in *. set (y := firstn _ h2) in *. assert (L : length x = length y) by congruence. clearbody x y. clear - F1 F2 H L.
  assert (WB : 2 ^ wd a <= 256 ^ N.of_nat (wbytes a)) by (destruct a; vm_compute; discriminate).
  revert y F2 H L. induction x as [|u x IH]; intros [|v y] F2 H L; try discriminate; [reflexivity|].
  cbn [map concat] in H. inversion F1; subst. inversion F2; subst.
  assert (HL : length (word_bytes a (wbytes a) u) = length (word_bytes a (wbytes a) v)) by now rewrite !word_bytes_length.
  assert (P : word_bytes a (wbytes a) u = word_bytes a (wbytes a) v).
  { now apply app_same_length in H. }
  f_equal.
  - apply (word_bytes_value a (wbytes a)); [unfold word in *; lia|unfold word in *; lia|exact P].
  - apply IH; [assumption|assumption| |now injection L]. rewrite P in H. now apply app_inv_head in H.
Qed.

Lemma step_eq : forall a h b, block_step a h b = compress_of a h b.
Proof.
  intros a h b. destruct a; cbn [block_step compress_of]; unfold md5_compress_l, sha1_compress_l, sha2_compress_l, l4, l5, q4_of, q5_of; reflexivity.
Qed.
Lemma start_eq : forall a, start_value a = a_iv (alg_of a).
Proof. destruct a; vm_compute; reflexivity. Qed.

Lemma fold_ext : forall A B (f g : A -> B -> A) l x, (forall x y, f x y = g x y) -> fold_left f l x = fold_left g l x.
Proof. intros A B f g l x H. revert x. induction l; intros x; [reflexivity|]. cbn [fold_left]. now rewrite H, IHl. Qed.
Lemma chain_eq : forall a l, chain a l = fold_left (compress_of a) l (a_iv (alg_of a)).
Proof. intros a l. unfold chain. rewrite start_eq. apply fold_ext, step_eq. Qed.
Lemma chain_snoc : forall a l x, chain a (l ++ [x]) = block_step a (chain a l) x.
Proof. intros a l x. unfold chain. rewrite fold_left_app. reflexivity. Qed.
Lemma blocks_eq : forall a m, message_blocks a m = pieces (bsz a) (pad a m).
Proof.
  intros a m. unfold message_blocks, pad, code_padded.
  replace (N.to_nat (block_size a)) with (bsz a) by (destruct a; reflexivity). f_equal.
  destruct a.
  - unfold md5_padded. change (a_bs (alg_of MD5)) with 64. change (N.of_nat (field MD5)) with 8. apply padded_ext.
    change (word_bytes MD5 (field MD5)) with (le_bytes 8). rewrite N.mul_0_r, N.add_0_l. symmetry. apply le_bytes_mod. cbn. lia.
  - unfold sha1_padded. change (a_bs (alg_of SHA1)) with 64. change (N.of_nat (field SHA1)) with 8. apply padded_ext.
    change (word_bytes SHA1 (field SHA1)) with (be_bytes 8). rewrite N.mul_0_r, N.add_0_l. unfold be_bytes. f_equal. symmetry. apply le_bytes_mod. cbn. lia.
  - unfold sha256_padded. change (a_bs (alg_of SHA224)) with 64. change (N.of_nat (field SHA224)) with 8. apply padded_ext.
    change (word_bytes SHA224 (field SHA224)) with (be_bytes 8). rewrite N.mul_0_r, N.add_0_l. unfold be_bytes. f_equal. symmetry. apply le_bytes_mod. cbn. lia.
  - unfold sha256_padded. change (a_bs (alg_of SHA256)) with 64. change (N.of_nat (field SHA256)) with 8. apply padded_ext.
    change (word_bytes SHA256 (field SHA256)) with (be_bytes 8). rewrite N.mul_0_r, N.add_0_l. unfold be_bytes. f_equal. symmetry. apply le_bytes_mod. cbn. lia.
  - unfold sha512_len64_padded. change (a_bs (alg_of SHA512)) with 128. change (N.of_nat (field SHA512)) with 16. apply padded_ext.
    change (word_bytes SHA512 (field SHA512)) with (be_bytes 16). rewrite N.mul_0_r, N.add_0_l. reflexivity.
Qed.
Lemma hash_chain : forall a m, lib_hash a m = digest_bytes a (chain a (message_blocks a m)).
Proof. intros a m. rewrite <- code_hash_lib. unfold code_hash, blocks. rewrite chain_eq, blocks_eq. reflexivity. Qed.
Lemma chain_ok : forall a l, hash_ok a (chain a l).
Proof.
  intros a l. rewrite chain_eq. destruct l as [|x l] using rev_ind; [apply iv_ok|]. rewrite fold_left_app. cbn [fold_left]. apply compress_ok.
Qed.
Lemma outw_words : forall a, a_outw (alg_of a) = digest_words a.
Proof. destruct a; reflexivity. Qed.

Lemma blocks_count : forall a m1 m2, length m1 = length m2 -> length (message_blocks a m1) = length (message_blocks a m2).
Proof.
  intros a m1 m2 L. rewrite !blocks_eq. destruct (pad_length a m1) as (n1 & L1 & _). destruct (pad_length a m2) as (n2 & L2 & _).
  destruct (pieces_exact _ (bsz a) n1 (pad a m1) (bsz_pos a) L1) as (_ & _ & ->). destruct (pieces_exact _ (bsz a) n2 (pad a m2) (bsz_pos a) L2) as (_ & _ & ->).
  assert (Q : length (pad a m1) = length (pad a m2)).
  { unfold pad, code_padded. rewrite !padded_split, !app_length, !word_bytes_length. cbn [length]. rewrite !repeat_length, L. reflexivity. }
  rewrite L1, L2 in Q. pose proof (bsz_pos a). nia.
Qed.

Lemma mod_61 : forall x y, (8 * x) mod 2 ^ 64 = (8 * y) mod 2 ^ 64 -> x mod 2 ^ 61 = y mod 2 ^ 61.
Proof.
  intros x y H. change (2 ^ 64) with (8 * 2 ^ 61) in H. rewrite !N.mul_mod_distr_l in H by discriminate.
  apply N.mul_cancel_l in H; [exact H|discriminate].
Qed.

Theorem equal_digests : forall a m1 m2, lib_hash a m1 = lib_hash a m2 -> m1 = m2 \/ same_digest_reason a m1 m2.
Proof.
  intros a m1 m2 H. rewrite !hash_chain in H. apply digest_bytes_words in H; [|apply chain_ok..]. rewrite outw_words in H.
  destruct (pad_blocks a m1) as (l1 & x & B1 & Lx & Fx & C1). destruct (pad_blocks a m2) as (l2 & y & B2 & Ly & Fy & C2).
  pose proof (blocks_count a m1 m2) as BC.
  unfold same_digest_reason, collision_within, start_again. rewrite !blocks_eq in *. rewrite B1, B2 in *. rewrite !chain_snoc in H.
  assert (Last : chain a l1 <> chain a l2 \/ x <> y -> exists i j u v, nth_error (l1 ++ [x]) i = Some u /\ nth_error (l2 ++ [y]) j = Some v /\
    let h1 := chain a (firstn i (l1 ++ [x])) in let h2 := chain a (firstn j (l2 ++ [y])) in
    (h1 <> h2 \/ u <> v) /\
    (block_step a h1 u = block_step a h2 v \/
     S i = length (l1 ++ [x]) /\ S j = length (l2 ++ [y]) /\ firstn (digest_words a) (block_step a h1 u) = firstn (digest_words a) (block_step a h2 v)) /\
    (length m1 = length m2 -> i = j)).
  { intros D. exists (length l1), (length l2), x, y. rewrite !nth_error_app2, !Nat.sub_diag by lia. cbv zeta. rewrite !firstn_snoc, !firstn_all by lia.
    split; [reflexivity|]. split; [reflexivity|]. split; [exact D|]. split.
    - right. rewrite !app_length. cbn [length]. split; [lia|]. split; [lia|exact H].
    - intros L. apply BC in L. rewrite !app_length in L. cbn [length] in L. lia. }
  destruct (list_eq_dec N.eq_dec (chain a l1) (chain a l2)) as [Q|Q]; [|right; left; apply Last; now left].
  destruct (list_eq_dec N.eq_dec x y) as [<-|D]; [|right; left; apply Last; now right].
  pose proof Q as Q'. unfold chain in Q'.
  apply (walk _ _ (block_step a) (start_value a) (list_eq_dec N.eq_dec) (list_eq_dec N.eq_dec)) in Q'. destruct Q' as [->|[M|(L & A)]].
  - left. apply (pad_injective a). now rewrite <- C1, <- C2.
  - right. left. apply (meet_snoc _ _ _ _ _ _ x x) in M. destruct M as (i & j & u & v & Hi & Hj & D & Qs & Ls).
    exists i, j, u, v. cbv zeta. split; [exact Hi|]. split; [exact Hj|]. split; [exact D|]. split; [left; exact Qs|].
    intros L. apply Ls, BC, L.
  - right. right. split.
    { intros Z. apply BC in Z. rewrite !app_length in Z. cbn [length] in Z. lia. }
    split.
    { rewrite Fx in Fy. apply (f_equal (@rev N)) in Fy. rewrite !rev_involutive in Fy. apply field_value in Fy; [|apply N.mod_lt; discriminate..]. now apply mod_61. }
    destruct A as [A|A]; [left|right]; exact (again_snoc _ _ _ _ _ x A).
Qed.

(* ------------------------------------------------------------- HMAC *)

Lemma hmac_inputs : forall a k m, lib_hmac a k m = lib_hash a (outer_input a k m).
Proof. reflexivity. Qed.
Lemma key_block_length : forall a k, length (hmac_key (lib_hash a) (N.to_nat (block_size a)) k) = N.to_nat (block_size a).
Proof.
  intros a k. unfold hmac_key. assert (D : (N.to_nat (digest_size a) <= N.to_nat (block_size a))%nat) by (destruct a; cbn; lia).
  destruct (Nat.ltb_spec (N.to_nat (block_size a)) (length k)); rewrite app_length, repeat_length; [rewrite lib_hash_length|]; lia.
Qed.
Lemma lxor_injective : forall v l1 l2, map (N.lxor v) l1 = map (N.lxor v) l2 -> l1 = l2.
Proof.
  intros v. induction l1 as [|x l1 IH]; intros [|y l2] H; try discriminate; [reflexivity|]. cbn [map] in H. injection H as H0 H1. f_equal; [|now apply IH].
  rewrite <- (N.lxor_0_l x), <- (N.lxor_0_l y), <- (N.lxor_nilpotent v), !N.lxor_assoc. now rewrite H0.
Qed.
Theorem equal_hmacs : forall a k1 m1 k2 m2, lib_hmac a k1 m1 = lib_hmac a k2 m2 ->
  (hmac_key (lib_hash a) (N.to_nat (block_size a)) k1 = hmac_key (lib_hash a) (N.to_nat (block_size a)) k2 /\ m1 = m2) \/
  collision_within a (outer_input a k1 m1) (outer_input a k2 m2) \/
  same_digest_reason a (inner_input a k1 m1) (inner_input a k2 m2).
Proof.
  intros a k1 m1 k2 m2 H. rewrite !hmac_inputs in H. apply equal_digests in H.
  assert (L : length (outer_input a k1 m1) = length (outer_input a k2 m2)).
  { unfold outer_input. rewrite !app_length, !map_length, !key_block_length, !lib_hash_length. reflexivity. }
  destruct H as [H|[H|(D & _)]]; [|right; now left|contradiction].
  unfold outer_input in H. apply app_same_length in H; [|now rewrite !map_length, !key_block_length]. destruct H as (HK & HD).
  apply lxor_injective in HK. apply equal_digests in HD. destruct HD as [HD|HD]; [|right; now right].
  left. split; [exact HK|]. unfold inner_input in HD. rewrite HK in HD. now apply app_inv_head in HD.
Qed.

Lemma zeros_app : forall (k1 k2 : list N) n1 n2, k1 ++ repeat 0 n1 = k2 ++ repeat 0 n2 -> up_to_zeros k1 k2.
Proof.
  induction k1 as [|x k1 IH]; intros k2 n1 n2 H.
  - cbn [app] in H. exists (length k2). right. cbn [app].
    assert (Z : Forall (eq 0) (repeat 0 n1)) by (clear; induction n1; cbn; constructor; auto). rewrite H in Z. apply Forall_app in Z as [Z _].
    clear H. induction k2 as [|y k2 IH]; [reflexivity|]. inversion Z; subst. cbn [length repeat]. f_equal. now apply IH.
  - destruct k2 as [|y k2].
    + cbn [app] in H. exists (length (x :: k1)). left. cbn [app].
      assert (Z : Forall (eq 0) (repeat 0 n2)) by (clear; induction n2; cbn; constructor; auto). rewrite <- H in Z.
      change (Forall (eq 0) ((x :: k1) ++ repeat 0 n1)) in Z. apply Forall_app in Z as [Z _].
      clear - Z. generalize dependent (x :: k1). intros l Z. induction l as [|y k2 IH]; [reflexivity|]. inversion Z; subst. cbn [length repeat]. f_equal. now apply IH.
    + cbn [app] in H. injection H as -> H. destruct (IH k2 n1 n2 H) as (n & [-> | ->]); exists n; [left|right]; reflexivity.
Qed.

Theorem equal_keys : forall a k1 k2,
  hmac_key (lib_hash a) (N.to_nat (block_size a)) k1 = hmac_key (lib_hash a) (N.to_nat (block_size a)) k2 ->
  let short k := (length k <= N.to_nat (block_size a))%nat in
  (short k1 /\ short k2 /\ up_to_zeros k1 k2) \/
  (~ short k1 /\ short k2 /\ up_to_zeros (lib_hash a k1) k2) \/
  (short k1 /\ ~ short k2 /\ up_to_zeros k1 (lib_hash a k2)) \/
  (~ short k1 /\ ~ short k2 /\ (k1 = k2 \/ same_digest_reason a k1 k2)).
Proof.
  intros a k1 k2 H short. unfold hmac_key in H. unfold short.
  destruct (Nat.ltb_spec (N.to_nat (block_size a)) (length k1)) as [A|A], (Nat.ltb_spec (N.to_nat (block_size a)) (length k2)) as [B|B].
  - right. right. right. split; [lia|]. split; [lia|]. apply app_same_length in H; [|now rewrite !lib_hash_length]. destruct H as (H & _). now apply equal_digests.
  - right. left. split; [lia|]. split; [lia|]. exact (zeros_app _ _ _ _ H).
  - right. right. left. split; [lia|]. split; [lia|]. exact (zeros_app _ _ _ _ H).
  - left. split; [lia|]. split; [lia|]. exact (zeros_app _ _ _ _ H).
Qed.

(* ------------------------------------------------------------- the library *)

Theorem calculate_collision : forall a E1 E2 bp1 n1 hp1 k1 e1 s1 s1' bp2 n2 hp2 k2 e2 s2 s2',
  good_state s1 -> arg s1 (Some bp1) n1 -> arg s1 (Some hp1) k1 -> good_state s2 -> arg s2 (Some bp2) n2 -> arg s2 (Some hp2) k2 ->
  calculate E1 a (Some bp1) n1 (Some hp1) k1 e1 s1 = Done 1%Z s1' -> calculate E2 a (Some bp2) n2 (Some hp2) k2 e2 s2 = Done 1%Z s2' ->
  bytes_at s1' hp1 (digest_size a) = bytes_at s2' hp2 (digest_size a) ->
  bytes_at s1 bp1 n1 = bytes_at s2 bp2 n2 \/ same_digest_reason a (bytes_at s1 bp1 n1) (bytes_at s2 bp2 n2).
Proof.
  intros a E1 E2 bp1 n1 hp1 k1 e1 s1 s1' bp2 n2 hp2 k2 e2 s2 s2' G1 B1 H1 G2 B2 H2 R1 R2 Q.
  rewrite (calc_result _ _ _ _ _ _ _ _ _ G1 B1 H1 R1), (calc_result _ _ _ _ _ _ _ _ _ G2 B2 H2 R2) in Q. now apply equal_digests.
Qed.

Theorem hmac_collision : forall a E1 E2 kp1 kn1 bp1 n1 hp1 k1 e1 s1 s1' kp2 kn2 bp2 n2 hp2 k2 e2 s2 s2',
  good_state s1 -> arg s1 (Some kp1) kn1 -> arg s1 (Some bp1) n1 -> arg s1 (Some hp1) k1 ->
  good_state s2 -> arg s2 (Some kp2) kn2 -> arg s2 (Some bp2) n2 -> arg s2 (Some hp2) k2 ->
  calculate_hmac E1 a (Some kp1) kn1 (Some bp1) n1 (Some hp1) k1 e1 s1 = Done 1%Z s1' ->
  calculate_hmac E2 a (Some kp2) kn2 (Some bp2) n2 (Some hp2) k2 e2 s2 = Done 1%Z s2' ->
  bytes_at s1' hp1 (digest_size a) = bytes_at s2' hp2 (digest_size a) ->
  let key1 := bytes_at s1 kp1 kn1 in let m1 := bytes_at s1 bp1 n1 in let key2 := bytes_at s2 kp2 kn2 in let m2 := bytes_at s2 bp2 n2 in
  (hmac_key (lib_hash a) (N.to_nat (block_size a)) key1 = hmac_key (lib_hash a) (N.to_nat (block_size a)) key2 /\ m1 = m2) \/
  collision_within a (outer_input a key1 m1) (outer_input a key2 m2) \/
  same_digest_reason a (inner_input a key1 m1) (inner_input a key2 m2).
Proof.
  intros a E1 E2 kp1 kn1 bp1 n1 hp1 k1 e1 s1 s1' kp2 kn2 bp2 n2 hp2 k2 e2 s2 s2' G1 K1 B1 H1 G2 K2 B2 H2 R1 R2 Q key1 m1 key2 m2.
  rewrite (hmac_result _ _ _ _ _ _ _ _ _ _ _ G1 K1 B1 H1 R1), (hmac_result _ _ _ _ _ _ _ _ _ _ _ G2 K2 B2 H2 R2) in Q. now apply equal_hmacs.
Qed.
