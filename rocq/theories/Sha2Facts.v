(* The SHA-224, SHA-256 and SHA-512 block bodies compute the SHA-2 compression
   function of Spec.v. *)
From Coq Require Import Arith NArith List Lia Bool.
From Verif Require Import Words Spec Tables Transform WordFacts BlockFacts ShaFacts.
Import ListNotations.
Open Scope N_scope.

Definition w8 (w : N) (q : q8) : Prop := Forall (word w) (list_of_q8 q).
Lemma l8_of : forall h, length h = 8%nat -> list_of_q8 (q8_of h) = h.
Proof. intros h H. do 9 (destruct h as [|? h]; try discriminate). reflexivity. Qed.

Definition place8 (r : nat) (q : q8) : list N :=
  let '(a, b, c, d, e, f, g, h) := q in
  match r with
  | 0%nat => [a; b; c; d; e; f; g; h] | 1%nat => [b; c; d; e; f; g; h; a]
  | 2%nat => [c; d; e; f; g; h; a; b] | 3%nat => [d; e; f; g; h; a; b; c]
  | 4%nat => [e; f; g; h; a; b; c; d] | 5%nat => [f; g; h; a; b; c; d; e]
  | 6%nat => [g; h; a; b; c; d; e; f] | _ => [h; a; b; c; d; e; f; g]
  end.
Definition idx8 (r : nat) : nat * nat * nat * nat * nat * nat * nat * nat :=
  match r with
  | 0%nat => (0, 1, 2, 3, 4, 5, 6, 7) | 1%nat => (7, 0, 1, 2, 3, 4, 5, 6)
  | 2%nat => (6, 7, 0, 1, 2, 3, 4, 5) | 3%nat => (5, 6, 7, 0, 1, 2, 3, 4)
  | 4%nat => (4, 5, 6, 7, 0, 1, 2, 3) | 5%nat => (3, 4, 5, 6, 7, 0, 1, 2)
  | 6%nat => (2, 3, 4, 5, 6, 7, 0, 1) | _ => (1, 2, 3, 4, 5, 6, 7, 0)
  end%nat.
Definition sha2_entry (i : nat) : nat * (nat * nat * nat * nat * nat * nat * nat * nat) := (i, idx8 (i mod 8)).

(* what relates a code description to a specification *)
Record sha2_agrees (K : sha2_code) (P : sha2) (wb : nat) : Prop := {
  g_w : k_w K = s_w P;
  g_wb : N.of_nat wb * 8 = s_w P;
  g_wb0 : (0 < wb)%nat;
  g_sigma0 : forall x, word (s_w P) x -> sha2_small K (k_ext0 K) x = s_sigma0 P x;
  g_sigma1 : forall x, word (s_w P) x -> sha2_small K (k_ext1 K) x = s_sigma1 P x;
  g_Sigma0 : forall x, word (s_w P) x -> sha2_big K (k_s0 K) x = s_Sigma0 P x;
  g_Sigma1 : forall x, word (s_w P) x -> sha2_big K (k_s1 K) x = s_Sigma1 P x;
  g_roots : k_roots K = s_K P;
  g_rounds : k_rounds K = length (s_K P);
  g_16 : (16 <= k_rounds K)%nat;
  g_8 : (k_rounds K mod 8 = 0)%nat;
  g_order : k_order K = map N.of_nat (seq 0 wb);
  g_copy16 : k_copy16 K = seq 0 16;
  g_extend : k_extend K = seq 16 (k_rounds K - 16);
  g_unfolded : k_unfolded K = map sha2_entry (seq 0 (k_rounds K));
}.

Section Agree.
  Variables (K : sha2_code) (P : sha2) (wb : nat).
  Hypothesis G : sha2_agrees K P wb.
  Let w := s_w P.
  Let n := k_rounds K.

  Definition sha2_words (block : list N) : list N :=
    schedule (sha2_next P) (map be_value (pieces wb block)) (k_rounds K).
  Definition sha2_regs (h block : list N) : list N :=
    list_of_q8 (fold_left (sha2_step P (sha2_words block)) (seq 0 (k_rounds K)) (q8_of h)).
  Definition sha2_compress_l (h block : list N) : list N := list_of_q8 (sha2_compress P (q8_of h) block).

  Lemma sha2_words_eq : forall block,
    sha2_words block = schedule (sha2_next P) (map be_value (pieces wb block)) (k_rounds K).
  Proof. intros. unfold sha2_words. reflexivity. Qed.
  Lemma sha2_regs_eq : forall h block,
    sha2_regs h block = list_of_q8 (fold_left (sha2_step P (sha2_words block)) (seq 0 (k_rounds K)) (q8_of h)).
  Proof. intros. unfold sha2_regs. reflexivity. Qed.

  Lemma sha2_extend_ok : forall X values,
    Forall (word w) X -> length X = 16%nat -> length values = n ->
    ofold (sha2_extend K) (seq 16 (n - 16)) (X ++ skipn 16 values) = Some (schedule (sha2_next P) X n).
  Proof.
    intros X values HXw HX Hv. apply extend_ok; try assumption; [apply (g_16 _ _ _ G)|].
    intros W rest t Ht HW Hrest Htn HWs.
    assert (HWw : Forall (word w) W).
    { rewrite HWs. apply schedule_words; [assumption|]. intros. apply word_plus. }
    unfold sha2_extend. destruct (Nat.ltb_spec t 16); [lia|].
    rewrite !aget_app_l by lia. cbn [obind].
    rewrite aset_app_r by (try assumption; lia). do 3 f_equal.
    rewrite (g_sigma0 _ _ _ G), (g_sigma1 _ _ _ G) by now apply Forall_nth_word.
    rewrite (g_w _ _ _ G), !uadd_plus, plus_sum4. reflexivity.
  Qed.

  Lemma sha2_t_ok : forall X i h0 h1 h2 h4 h5 h6 h7,
    (i < n)%nat -> length X = n -> word w h0 -> word w h4 ->
    sha2_t K X i h0 h1 h2 h4 h5 h6 h7 =
    Some (plus w (plus w (plus w (plus w h7 (s_Sigma1 P h4)) (Ch w h4 h5 h6)) (nth i (s_K P) 0)) (nth i X 0),
          plus w (s_Sigma0 P h0) (Maj h0 h1 h2)).
  Proof.
    intros X i h0 h1 h2 h4 h5 h6 h7 Hi HX H0 H4. unfold sha2_t.
    rewrite (g_roots _ _ _ G), (aget_nth _ (s_K P) i 0) by (rewrite <- (g_rounds _ _ _ G); exact Hi).
    cbn [obind]. rewrite (aget_nth _ X i 0) by lia. cbn [obind].
    rewrite (g_Sigma0 _ _ _ G), (g_Sigma1 _ _ _ G), (g_w _ _ _ G), unot_complement by assumption.
    reflexivity.
  Qed.

  Lemma sha2_step_words : forall X q i, w8 w q -> w8 w (sha2_step P X q i).
  Proof.
    intros X [[[[[[[a b] c] d] e] f] g] h] i H. unfold w8 in *. cbn [sha2_step list_of_q8] in *.
    repeat match goal with H : Forall _ (_ :: _) |- _ => inversion_clear H end.
    repeat constructor; try assumption; apply word_plus.
  Qed.

  Lemma sha2_loop_step_ok : forall X q i, (i < n)%nat -> length X = n -> w8 w q ->
    sha2_loop_step K X (list_of_q8 q) i = Some (list_of_q8 (sha2_step P X q i)).
  Proof.
    intros X [[[[[[[a b] c] d] e] f] g] h] i Hi HX Hq. unfold w8 in Hq. cbn [list_of_q8] in Hq.
    repeat match goal with H : Forall _ (_ :: _) |- _ => inversion_clear H end.
    unfold sha2_loop_step. cbn [list_of_q8 aget nth_error obind aset].
    rewrite sha2_t_ok by assumption. cbn [obind aget nth_error aset fst snd].
    rewrite (g_w _ _ _ G), !uadd_plus. reflexivity.
  Qed.

  Lemma mod8_cases : forall i, ((i mod 8 = 0 /\ S i mod 8 = 1) \/ (i mod 8 = 1 /\ S i mod 8 = 2) \/
    (i mod 8 = 2 /\ S i mod 8 = 3) \/ (i mod 8 = 3 /\ S i mod 8 = 4) \/ (i mod 8 = 4 /\ S i mod 8 = 5) \/
    (i mod 8 = 5 /\ S i mod 8 = 6) \/ (i mod 8 = 6 /\ S i mod 8 = 7) \/ (i mod 8 = 7 /\ S i mod 8 = 0))%nat.
  Proof.
    intros i. pose proof (Nat.div_mod i 8). pose proof (Nat.mod_upper_bound i 8).
    pose proof (Nat.div_mod (S i) 8). pose proof (Nat.mod_upper_bound (S i) 8). lia.
  Qed.

  Lemma sha2_macro_ok : forall X q i, (i < n)%nat -> length X = n -> w8 w q ->
    sha2_macro K X (place8 (i mod 8) q) (sha2_entry i) = Some (place8 (S i mod 8) (sha2_step P X q i)).
  Proof.
    intros X [[[[[[[a b] c] d] e] f] g] h] i Hi HX Hq. unfold w8 in Hq. cbn [list_of_q8] in Hq.
    repeat match goal with H : Forall _ (_ :: _) |- _ => inversion_clear H end.
    unfold sha2_macro, sha2_entry.
    destruct (mod8_cases i) as [[E1 E2]|[[E1 E2]|[[E1 E2]|[[E1 E2]|[[E1 E2]|[[E1 E2]|[[E1 E2]|[E1 E2]]]]]]]];
    rewrite E1, E2; cbn [place8 idx8 aget nth_error obind];
    rewrite sha2_t_ok by assumption; cbn [obind aget nth_error amod aset fst snd];
    rewrite (g_w _ _ _ G), !uadd_plus; reflexivity.
  Qed.

  Lemma sha2_loop_ok : forall X q, length X = n -> w8 w q ->
    ofold (sha2_loop_step K X) (seq 0 n) (list_of_q8 q) = Some (list_of_q8 (fold_left (sha2_step P X) (seq 0 n) q)).
  Proof.
    intros X q HX Hq.
    assert (Gn : forall k, (k <= n)%nat ->
      ofold (sha2_loop_step K X) (seq 0 k) (list_of_q8 q) = Some (list_of_q8 (fold_left (sha2_step P X) (seq 0 k) q))
      /\ w8 w (fold_left (sha2_step P X) (seq 0 k) q)).
    { induction k; intros Hk; [split; [reflexivity|assumption]|].
      destruct IHk as [I1 I2]; [lia|].
      rewrite seq_snoc, ofold_app, fold_left_app, I1. cbn [obind ofold fold_left Nat.add].
      rewrite sha2_loop_step_ok by (try assumption; lia). cbn [obind].
      split; [reflexivity|]. now apply sha2_step_words. }
    now apply Gn.
  Qed.

  Lemma sha2_unfolded_ok : forall X q, length X = n -> w8 w q ->
    ofold (sha2_macro K X) (k_unfolded K) (list_of_q8 q) = Some (list_of_q8 (fold_left (sha2_step P X) (seq 0 n) q)).
  Proof.
    intros X q HX Hq. rewrite (g_unfolded _ _ _ G).
    assert (Gn : forall k, (k <= n)%nat ->
      ofold (sha2_macro K X) (map sha2_entry (seq 0 k)) (place8 0 q)
      = Some (place8 (k mod 8) (fold_left (sha2_step P X) (seq 0 k) q))
      /\ w8 w (fold_left (sha2_step P X) (seq 0 k) q)).
    { induction k; intros Hk; [split; [reflexivity|assumption]|].
      destruct IHk as [I1 I2]; [lia|].
      rewrite seq_snoc, map_app, ofold_app, fold_left_app, I1. cbn [obind ofold map fold_left Nat.add].
      rewrite sha2_macro_ok by (try assumption; lia). cbn [obind].
      split; [reflexivity|]. now apply sha2_step_words. }
    destruct (Gn n) as [G1 _]; [lia|].
    replace (list_of_q8 q) with (place8 0 q) by (destruct q as [[[[[[[? ?] ?] ?] ?] ?] ?] ?]; reflexivity).
    change (k_rounds K) with n. rewrite G1. unfold n at 1. rewrite (g_8 _ _ _ G).
    destruct (fold_left _ _ _) as [[[[[[[? ?] ?] ?] ?] ?] ?] ?]. reflexivity.
  Qed.

  Lemma sha2_block_ok : forall u buf off h values,
    Forall is_byte buf -> (N.to_nat off + 16 * wb <= length buf)%nat ->
    length h = 8%nat -> Forall (word w) h -> length values = n ->
    sha2_block K u buf off h values =
    Some (off + N.of_nat (16 * wb), sha2_compress_l h (slice buf (N.to_nat off) (16 * wb)),
          sha2_regs h (slice buf (N.to_nat off) (16 * wb)), sha2_words (slice buf (N.to_nat off) (16 * wb))).
  Proof.
    intros u buf off h values HF Hlen Hh Hhw Hv.
    set (blk := slice buf (N.to_nat off) (16 * wb)).
    pose proof (g_wb _ _ _ G) as Ewb. pose proof (g_wb0 _ _ _ G) as Ewb0. pose proof (g_16 _ _ _ G) as E16.
    assert (Ew8 : w / 8 = N.of_nat wb) by (unfold w; rewrite <- Ewb; apply N.div_mul; lia).
    assert (Hval : forall o, (N.to_nat o + wb <= length buf)%nat ->
      copy_to_uint w (k_order K) buf o = Some (be_value (slice buf (N.to_nat o) wb))).
    { intros. rewrite (g_order _ _ _ G). apply copy_to_be; try assumption; unfold w; lia. }
    assert (Hw : words_at wb be_value buf off 16 = map be_value (pieces wb blk)).
    { apply words_at_pieces; lia. }
    assert (Hww : Forall (word w) (map be_value (pieces wb blk))).
    { rewrite <- Hw. apply be_words; try assumption. }
    assert (Hl : length (map be_value (pieces wb blk)) = 16%nat).
    { rewrite <- Hw. apply words_at_length. }
    assert (Hl2 : length (sha2_words blk) = n) by apply schedule_length.
    assert (Hq : w8 w (q8_of h)) by (unfold w8; rewrite l8_of; assumption).
    assert (Hadd : add_hash_values w 8 h (sha2_regs h blk) = Some (sha2_compress_l h blk)).
    { rewrite <- Hh at 1. rewrite add_hash_values_ok.
      - unfold sha2_compress_l, sha2_compress. rewrite sha2_regs_eq, sha2_words_eq. fold w.
        rewrite <- (g_rounds _ _ _ G). rewrite Ew8, Nat2N.id.
        rewrite <- (l8_of h Hh) at 1.
        destruct (q8_of h) as [[[[[[[a b] c] d] e] f] g] h'].
        destruct (fold_left _ _ _) as [[[[[[[a' b'] c'] d'] e'] f'] g'] h''].
        cbn [list_of_q8 combine map fst snd].
        rewrite (plus_comm w a), (plus_comm w b), (plus_comm w c), (plus_comm w d), (plus_comm w e),
          (plus_comm w f), (plus_comm w g), (plus_comm w h'). reflexivity.
      - rewrite sha2_regs_eq. rewrite Hh. destruct (fold_left _ _ _) as [[[[[[[? ?] ?] ?] ?] ?] ?] ?]. reflexivity. }
    pose proof (sha2_extend_ok _ values Hww Hl Hv) as R0. unfold n in R0. rewrite <- sha2_words_eq in R0.
    pose proof (sha2_unfolded_ok _ _ Hl2 Hq) as R1. rewrite (l8_of h Hh) in R1.
    pose proof (sha2_loop_ok _ _ Hl2 Hq) as R2. rewrite (l8_of h Hh) in R2.
    unfold n in R1, R2. rewrite <- sha2_regs_eq in R1, R2.
    unfold sha2_block. rewrite (g_w _ _ _ G). fold w. destruct u.
    - rewrite (g_copy16 _ _ _ G), (g_extend _ _ _ G).
      rewrite (copy_16x_ok w wb (k_order K) be_value buf) by (try assumption; try lia; rewrite Hv; exact E16).
      cbn [obind]. rewrite Hw, R0. cbn [obind]. rewrite R1. cbn [obind]. rewrite Hadd.
      cbn [obind]. replace (off + N.of_nat (16 * wb)) with (off + 2 * w) by (unfold w; lia). reflexivity.
    - rewrite (copy_loop_ok w wb (k_order K) be_value buf) by (try assumption; try lia; rewrite Hv; exact E16).
      cbn [obind]. rewrite Hw, R0. cbn [obind]. rewrite R2. cbn [obind]. rewrite Hadd. cbn [obind].
      replace (off + 16 * N.of_nat wb) with (off + N.of_nat (16 * wb)) by lia. reflexivity.
  Qed.

  Lemma sha2_compress_words : forall h block,
    Forall (word w) (sha2_compress_l h block) /\ length (sha2_compress_l h block) = 8%nat.
  Proof.
    intros. unfold sha2_compress_l, sha2_compress.
    destruct (q8_of h) as [[[[[[[a b] c] d] e] f] g] h'].
    destruct (fold_left _ _ _) as [[[[[[[a' b'] c'] d'] e'] f'] g'] h''].
    split; [|reflexivity]. repeat constructor; apply word_plus.
  Qed.
End Agree.

Lemma cube_roots_32 : map (cbrt_frac 32) (first_primes 64) = sha256_cube_roots.
Proof. vm_compute. reflexivity. Qed.
Lemma cube_roots_64 : map (cbrt_frac 64) (first_primes 80) = sha512_cube_roots.
Proof. vm_compute. reflexivity. Qed.

Ltac sigma_tac :=
  intros x Hx; unfold sha2_small, sha2_big, xor3; cbn [k_w k_ext0 k_ext1 k_s0 k_s1 s_w s_sigma0 s_sigma1 s_Sigma0 s_Sigma1
    sha224_code sha256_code sha512_code sha2_32 sha2_64] in *;
  rewrite ?ushr_SHR, !rotr_ROTR by (try assumption; lia); reflexivity.

Lemma cube_roots_224 : sha224_cube_roots = sha256_cube_roots.
Proof. vm_compute. reflexivity. Qed.
Lemma sha2_32_K : s_K sha2_32 = sha256_cube_roots.
Proof. cbn [s_K sha2_32]. exact cube_roots_32. Qed.
Lemma sha2_64_K : s_K sha2_64 = sha512_cube_roots.
Proof. cbn [s_K sha2_64]. exact cube_roots_64. Qed.

Ltac agree_tac HK :=
  constructor; try sigma_tac; try (rewrite HK);
  try first [exact cube_roots_224 | vm_compute; reflexivity]; cbn; lia.

Lemma sha224_agrees : sha2_agrees sha224_code sha2_32 4.
Proof. agree_tac sha2_32_K. Qed.
Lemma sha256_agrees : sha2_agrees sha256_code sha2_32 4.
Proof. agree_tac sha2_32_K. Qed.
Lemma sha512_agrees : sha2_agrees sha512_code sha2_64 8.
Proof. agree_tac sha2_64_K. Qed.
