(* The representation invariant of a context and its connection to the
   specifications. *)
From Coq Require Import Arith NArith ZArith List Lia Bool.
From Verif Require Import Words Spec Tables Transform Machine Context WordFacts BlockFacts ShaFacts Sha2Facts
  MachineFacts TransformFacts ContextFacts DigestFacts.
Import ListNotations.
Open Scope N_scope.
Arguments N.mul : simpl never.
Arguments N.add : simpl never.
Arguments N.sub : simpl never.
Arguments N.div : simpl never.
Arguments N.modulo : simpl never.
Arguments N.pow : simpl never.
Arguments alg_of : simpl never.

(* context c has absorbed the bytes m, starting from the chaining value h0 and the byte count n0 *)
Record ctx_repr (a : algid) (h0 : list N) (n0 : N) (c : ctx) (m : list N) : Prop := {
  re_wf : ctx_wf a c;
  re_h0 : hash_ok a h0;
  re_msg : Forall is_byte m;
  re_hash : c_hash c = blocks a h0 (firstn (dn a (length m)) m);
  re_count : c_count c = (n0 + N.of_nat (dn a (length m))) mod 2 ^ 64;
  re_boff : c_boff c = N.of_nat (length m - dn a (length m));
  re_tail : firstn (N.to_nat (c_boff c)) (c_block c) = skipn (dn a (length m)) m;
}.

Lemma dn_mult : forall a L, exists k, dn a L = (k * bsz a)%nat.
Proof. intros. eexists. reflexivity. Qed.
Lemma dn_add : forall a k L, dn a (k * bsz a + L) = (k * bsz a + dn a L)%nat.
Proof.
  intros. unfold dn. pose proof (bsz_pos a). rewrite Nat.add_comm, Nat.div_add by lia. lia.
Qed.
Lemma dn_small : forall a L, (L < bsz a)%nat -> dn a L = 0%nat.
Proof. intros. unfold dn. rewrite Nat.div_small by assumption. reflexivity. Qed.
Lemma dn_0 : forall a, dn a 0 = 0%nat.
Proof. intros. apply dn_small, bsz_pos. Qed.

(* every well-formed context represents something *)
Lemma repr_any : forall a c, ctx_wf a c ->
  ctx_repr a (c_hash c) (c_count c) c (firstn (N.to_nat (c_boff c)) (c_block c)).
Proof.
  intros a c W. pose proof (wf_len _ _ W). pose proof (wf_boff _ _ W). pose proof (bsz_N a).
  assert (L : length (firstn (N.to_nat (c_boff c)) (c_block c)) = N.to_nat (c_boff c)) by (rewrite firstn_length; lia).
  assert (D : dn a (length (firstn (N.to_nat (c_boff c)) (c_block c))) = 0%nat) by (apply dn_small; lia).
  constructor; rewrite ?D; try reflexivity.
  - assumption.
  - apply (wf_hash _ _ W).
  - apply Forall_firstn, (wf_block _ _ W).
  - rewrite N.add_0_r. symmetry. apply N.mod_small, (wf_count _ _ W).
  - rewrite L. lia.
Qed.

Lemma zero_bytes_ok : forall n, Forall is_byte (repeat 0 n).
Proof. intros. apply Forall_forall. intros x Hx. apply repeat_spec in Hx. subst. reflexivity. Qed.

Definition init_ctx (a : algid) : ctx :=
  mk_ctx 0 (a_iv (alg_of a)) 0 (repeat 0 (N.to_nat (2 * a_bs (alg_of a)))).

Lemma iv_ok : forall a, hash_ok a (a_iv (alg_of a)).
Proof.
  intros a. split; [reflexivity|].
  destruct a; repeat (constructor; [reflexivity|]); constructor.
Qed.
Lemma zero_hash_ok : forall a, hash_ok a (repeat 0 (nh a)).
Proof.
  intros a. split; [apply repeat_length|]. apply Forall_forall. intros x Hx. apply repeat_spec in Hx. subst. apply word_0.
Qed.

Lemma fresh_repr : forall a h, hash_ok a h -> ctx_repr a h 0 (mk_ctx 0 h 0 (repeat 0 (N.to_nat (2 * a_bs (alg_of a))))) [].
Proof.
  intros a h H. pose proof (bs_pos a). constructor; cbn [c_hash c_count c_boff c_block length]; rewrite ?dn_0; try reflexivity; try assumption.
  - constructor; cbn [c_hash c_count c_boff c_block]; try assumption; [|apply zero_bytes_ok|reflexivity].
    rewrite repeat_length. unfold bsz. lia.
  - constructor.
Qed.
Lemma init_repr : forall a, ctx_repr a (a_iv (alg_of a)) 0 (init_ctx a) [].
Proof. intros. apply fresh_repr, iv_ok. Qed.
Lemma zero_repr : forall a, ctx_repr a (repeat 0 (nh a)) 0 (zero_ctx (alg_of a)) [].
Proof. intros. apply fresh_repr, zero_hash_ok. Qed.
Lemma init_wf : forall a, ctx_wf a (init_ctx a).
Proof. intros. apply (re_wf _ _ _ _ _ (init_repr a)). Qed.
Lemma zero_wf : forall a, ctx_wf a (zero_ctx (alg_of a)).
Proof. intros. apply (re_wf _ _ _ _ _ (zero_repr a)). Qed.

Lemma uadd_mod : forall n x y, uadd 64 ((n + x) mod 2 ^ 64) y = (n + (x + y)) mod 2 ^ 64.
Proof.
  intros. unfold uadd. rewrite N.add_mod_idemp_l by discriminate. f_equal. lia.
Qed.

Lemma firstn_app_ge : forall A (l l' : list A) n, (length l <= n)%nat -> firstn n (l ++ l') = l ++ firstn (n - length l) l'.
Proof. intros. rewrite firstn_app, firstn_all2 by assumption. reflexivity. Qed.
Lemma skipn_app_ge : forall A (l l' : list A) n, (length l <= n)%nat -> skipn n (l ++ l') = skipn (n - length l) l'.
Proof. intros. rewrite skipn_app, skipn_all2 by assumption. reflexivity. Qed.

Lemma tail_repr : forall a h0 n0 c m d,
  ctx_repr a h0 n0 c m -> c_boff c = 0 -> Forall is_byte d -> ctx_repr a h0 n0 (tail_fn a c d) (m ++ d).
Proof.
  intros a h0 n0 c m d R H0 Hd. pose proof (re_boff _ _ _ _ _ R) as Hb. rewrite H0 in Hb.
  pose proof (dn_le a (length m)) as Hle.
  assert (HD : dn a (length m) = length m) by lia.
  destruct (dn_mult a (length m)) as [k Hk]. rewrite HD in Hk.
  assert (HDD : dn a (length (m ++ d)) = (length m + dn a (length d))%nat).
  { rewrite app_length, Hk. apply dn_add. }
  pose proof (dn_le a (length d)) as Hle2. pose proof (dn_rest_lt a (length d)) as Hr.
  pose proof (wf_len _ _ (re_wf _ _ _ _ _ R)) as Hbl.
  assert (Hsk : skipn (dn a (length (m ++ d))) (m ++ d) = skipn (dn a (length d)) d).
  { rewrite HDD, skipn_app_ge by lia. f_equal. lia. }
  constructor.
  - apply tail_fn_wf; [apply (re_wf _ _ _ _ _ R)|assumption].
  - apply (re_h0 _ _ _ _ _ R).
  - apply Forall_app. split; [apply (re_msg _ _ _ _ _ R)|assumption].
  - cbn [tail_fn c_hash]. rewrite (re_hash _ _ _ _ _ R), HD, firstn_all, HDD.
    rewrite firstn_app_ge by lia. replace (length m + dn a (length d) - length m)%nat with (dn a (length d)) by lia.
    now rewrite (blocks_app a h0 k).
  - cbn [tail_fn c_count]. rewrite (re_count _ _ _ _ _ R), HDD, uadd_mod, HD. do 2 f_equal. lia.
  - cbn [tail_fn c_boff]. rewrite HDD, app_length. f_equal. lia.
  - rewrite Hsk. cbn [tail_fn c_boff c_block]. rewrite Nat2N.id. unfold put. cbn [N.to_nat firstn app].
    rewrite firstn_app. rewrite skipn_length, Nat.sub_diag, firstn_O, app_nil_r.
    apply firstn_all2. rewrite skipn_length. lia.
Qed.

Lemma update_repr : forall a h0 n0 c m d,
  ctx_repr a h0 n0 c m -> Forall is_byte d -> ctx_repr a h0 n0 (update_fn a c d) (m ++ d).
Proof.
  intros a h0 n0 c m d R Hd.
  pose proof (re_wf _ _ _ _ _ R) as W. pose proof (wf_len _ _ W) as Hbl. pose proof (wf_boff _ _ W) as Hbo.
  pose proof (bsz_N a) as HbN. pose proof (dn_le a (length m)) as Hle. pose proof (re_boff _ _ _ _ _ R) as Hb.
  destruct (dn_mult a (length m)) as [k Hk].
  pose proof (update_fn_wf a c d W Hd) as WU.
  unfold update_fn in *. destruct (N.eqb_spec (c_boff c) 0) as [H0|H0]; [now apply tail_repr|].
  set (rem := Nat.min (bsz a - N.to_nat (c_boff c)) (length d)) in *.
  set (block1 := put (c_block c) (c_boff c) (firstn rem d)) in *.
  assert (Hfl : length (firstn rem d) = rem) by (rewrite firstn_length; lia).
  assert (Hm : length m = (k * bsz a + N.to_nat (c_boff c))%nat) by lia.
  assert (Hf1 : firstn (N.to_nat (c_boff c) + rem) block1 = skipn (dn a (length m)) m ++ firstn rem d).
  { unfold block1, put. rewrite <- (re_tail _ _ _ _ _ R).
    rewrite firstn_app_ge by (rewrite firstn_length; lia). f_equal.
    rewrite firstn_length, Nat.min_l by lia.
    rewrite firstn_app, Hfl.
    replace (N.to_nat (c_boff c) + rem - N.to_nat (c_boff c) - rem)%nat with 0%nat by lia. rewrite firstn_O, app_nil_r.
    apply firstn_all2. lia. }
  destruct (N.ltb_spec (c_boff c + N.of_nat rem) (a_bs (alg_of a))) as [Hs|Hs].
  - (* everything fits in the block *)
    assert (Hrd : rem = length d) by lia.
    assert (HD : dn a (length (m ++ d)) = dn a (length m)).
    { rewrite app_length, Hm, <- Nat.add_assoc, dn_add, dn_add, !dn_small by lia. reflexivity. }
    assert (Hsk : skipn (dn a (length m)) (m ++ d) = skipn (dn a (length m)) m ++ d).
    { rewrite skipn_app. replace (dn a (length m) - length m)%nat with 0%nat by lia. reflexivity. }
    constructor; cbn [c_hash c_boff c_count c_block]; rewrite ?HD.
    + assumption.
    + apply (re_h0 _ _ _ _ _ R).
    + apply Forall_app. split; [apply (re_msg _ _ _ _ _ R)|assumption].
    + rewrite firstn_app. replace (dn a (length m) - length m)%nat with 0%nat by lia. rewrite firstn_O, app_nil_r.
      apply (re_hash _ _ _ _ _ R).
    + apply (re_count _ _ _ _ _ R).
    + rewrite app_length. lia.
    + rewrite Hsk. replace (N.to_nat (c_boff c + N.of_nat rem)) with (N.to_nat (c_boff c) + rem)%nat by lia.
      rewrite Hf1. f_equal. apply firstn_all2. lia.
  - (* the block is completed *)
    assert (Hrem : (N.to_nat (c_boff c) + rem = bsz a)%nat) by lia.
    replace (m ++ d) with ((m ++ firstn rem d) ++ skipn rem d) by (rewrite <- app_assoc, firstn_skipn; reflexivity).
    assert (HD : dn a (length (m ++ firstn rem d)) = (S k * bsz a)%nat).
    { rewrite app_length, Hfl, Hm. replace (k * bsz a + N.to_nat (c_boff c) + rem)%nat with (S k * bsz a + 0)%nat by lia.
      rewrite dn_add, dn_0. lia. }
    assert (HL : length (m ++ firstn rem d) = (S k * bsz a)%nat) by (rewrite app_length, Hfl; lia).
    assert (Hb1 : length block1 = (2 * bsz a)%nat) by (unfold block1; rewrite put_length; lia).
    assert (HF1 : Forall is_byte block1) by (apply Forall_put; [apply (wf_block _ _ W)|now apply Forall_firstn]).
    rewrite Hrem in Hf1.
    apply tail_repr; [|reflexivity|now apply Forall_skipn].
    constructor; cbn [c_hash c_boff c_count c_block]; rewrite ?HD.
    + constructor; cbn [c_hash c_boff c_count c_block]; try assumption; [apply blocks_ok, (wf_hash _ _ W)|pose proof (bs_pos a); lia|apply uadd_lt].
    + apply (re_h0 _ _ _ _ _ R).
    + apply Forall_app. split; [apply (re_msg _ _ _ _ _ R)|now apply Forall_firstn].
    + rewrite (@firstn_all2 _ (S k * bsz a) (m ++ firstn rem d)) by lia. rewrite Hf1, (re_hash _ _ _ _ _ R).
      rewrite <- (blocks_app a h0 k) by (rewrite firstn_length; lia). f_equal.
      rewrite app_assoc, firstn_skipn. reflexivity.
    + rewrite (re_count _ _ _ _ _ R), uadd_mod, Hk. do 2 f_equal. lia.
    + rewrite HL. lia.
    + rewrite skipn_all2 by lia. reflexivity.
Qed.

(* ----------------------------------------------------------- the digest *)

Definition field (a : algid) : nat := N.to_nat (wd a / 4).

(* the padding the code applies: the length field holds 64 significant bits *)
Definition code_padded (a : algid) (n0 : N) (m : list N) : list N :=
  padded (a_bs (alg_of a)) (N.of_nat (field a))
         (fun bits => word_bytes a (field a) ((8 * n0 + bits) mod 2 ^ 64)) m.
Definition code_hash (a : algid) (h0 : list N) (n0 : N) (m : list N) : list N :=
  digest_bytes a (blocks a h0 (code_padded a n0 m)).

Lemma thr_field : forall a, a_thr (alg_of a) + 1 + N.of_nat (field a) = a_bs (alg_of a).
Proof. destruct a; reflexivity. Qed.
Lemma field_cases : forall a, (field a = 8 \/ (field a = 16 /\ a_big (alg_of a) = true))%nat.
Proof. destruct a; vm_compute; auto. Qed.

Lemma pad_field : forall a z v, v < 2 ^ 64 ->
  repeat 0 (z + (field a - 8)) ++ word_bytes a 8 v = repeat 0 z ++ word_bytes a (field a) v.
Proof.
  intros a z v Hv. destruct (field_cases a) as [->|[-> Hb]].
  - now rewrite Nat.sub_diag, Nat.add_0_r.
  - rewrite repeat_app, <- app_assoc. f_equal. unfold word_bytes. rewrite Hb.
    change (16 - 8)%nat with 8%nat. unfold be_bytes. change 16%nat with (8 + 8)%nat.
    rewrite le_bytes_app. rewrite N.div_small by (exact Hv). rewrite le_bytes_0, rev_app_distr, rev_repeat. reflexivity.
Qed.

Lemma digest_repr : forall a h0 n0 c m, ctx_repr a h0 n0 c m -> digest_fn a c = code_hash a h0 n0 m.
Proof.
  intros a h0 n0 c m R. unfold digest_fn, code_hash. f_equal.
  pose proof (re_wf _ _ _ _ _ R) as W. pose proof (wf_boff _ _ W) as Hbo. pose proof (bsz_N a) as HbN.
  pose proof (dn_le a (length m)) as Hle. pose proof (re_boff _ _ _ _ _ R) as Hb. pose proof (thr_field a) as Ht.
  pose proof (field_cases a) as Hfc. destruct (final_size_ok a c W) as (F1 & F2 & _).
  destruct (dn_mult a (length m)) as [k Hk].
  assert (Hcp : code_padded a n0 m = firstn (dn a (length m)) m ++ final_data a c).
  { unfold code_padded, padded, final_data. rewrite (re_tail _ _ _ _ _ R).
    rewrite (app_assoc (firstn (dn a (length m)) m)), firstn_skipn. f_equal. f_equal.
    assert (Hbits : (uadd 64 (c_count c) (c_boff c) * 8) mod 2 ^ 64 = (8 * n0 + 8 * N.of_nat (length m)) mod 2 ^ 64).
    { rewrite (re_count _ _ _ _ _ R), uadd_mod, N.mul_mod_idemp_l by discriminate. f_equal. lia. }
    rewrite Hbits. symmetry.
    assert (Hz : N.to_nat (final_size a c - c_boff c - 9)
             = (N.to_nat (zero_bytes (a_bs (alg_of a)) (N.of_nat (field a)) (N.of_nat (length m))) + (field a - 8))%nat).
    { assert (Hlen : N.of_nat (length m) = c_boff c + N.of_nat k * a_bs (alg_of a)) by lia.
      unfold zero_bytes. rewrite Hlen.
      replace (c_boff c + N.of_nat k * a_bs (alg_of a) + 1 + N.of_nat (field a))
        with (c_boff c + 1 + N.of_nat (field a) + N.of_nat k * a_bs (alg_of a)) by lia.
      rewrite N.mod_add by lia. unfold final_size in *.
      destruct (N.ltb_spec (a_thr (alg_of a)) (c_boff c)) as [L|L].
      - replace (c_boff c + 1 + N.of_nat (field a)) with ((c_boff c + 1 + N.of_nat (field a) - a_bs (alg_of a)) + 1 * a_bs (alg_of a)) by lia.
        rewrite N.mod_add by lia. rewrite (N.mod_small (_ - a_bs (alg_of a))) by lia.
        rewrite N.mod_small by lia. lia.
      - destruct (N.eq_dec (c_boff c + 1 + N.of_nat (field a)) (a_bs (alg_of a))) as [Eq|Ne].
        + rewrite Eq, N.mod_same, N.sub_0_r, N.mod_same by lia. lia.
        + rewrite (N.mod_small (_ + _)) by lia. rewrite N.mod_small by lia. lia. }
    rewrite Hz. apply pad_field. apply N.mod_lt. discriminate. }
  rewrite Hcp, (blocks_app a h0 k), (re_hash _ _ _ _ _ R) by (rewrite firstn_length; lia). reflexivity.
Qed.

(* ------------------------------------------ connection to the standards *)

Lemma q4_l4 : forall q, q4_of (l4 q) = q.
Proof. intros [[[? ?] ?] ?]. reflexivity. Qed.
Lemma q5_l5 : forall q, q5_of (l5 q) = q.
Proof. intros [[[[? ?] ?] ?] ?]. reflexivity. Qed.
Lemma q8_l8 : forall q, q8_of (list_of_q8 q) = q.
Proof. intros [[[[[[[? ?] ?] ?] ?] ?] ?] ?]. reflexivity. Qed.
Lemma fold_rel : forall A B X (f : A -> X -> A) (g : B -> X -> B) (to : B -> A),
  (forall q b, f (to q) b = to (g q b)) -> forall ps q, fold_left f ps (to q) = to (fold_left g ps q).
Proof.
  intros A B X f g to H. induction ps; intros q; [reflexivity|]. cbn [fold_left]. rewrite H. apply IHps.
Qed.
Lemma md5_rel : forall q b, md5_compress_l (l4 q) b = l4 (md5_compress q b).
Proof. intros. unfold md5_compress_l. rewrite q4_l4. reflexivity. Qed.
Lemma sha1_rel : forall q b, sha1_compress_l (l5 q) b = l5 (sha1_compress q b).
Proof. intros. unfold sha1_compress_l. rewrite q5_l5. reflexivity. Qed.
Lemma sha2_rel : forall P q b, sha2_compress_l P (list_of_q8 q) b = list_of_q8 (sha2_compress P q b).
Proof. intros. unfold sha2_compress_l. rewrite q8_l8. reflexivity. Qed.

Lemma fold_md5 : forall ps h, length h = 4%nat ->
  fold_left md5_compress_l ps h = l4 (fold_left md5_compress ps (q4_of h)).
Proof. intros ps h H. rewrite <- (l4_of h H) at 1. exact (fold_rel _ _ _ _ _ l4 md5_rel ps (q4_of h)). Qed.
Lemma fold_sha1 : forall ps h, length h = 5%nat ->
  fold_left sha1_compress_l ps h = l5 (fold_left sha1_compress ps (q5_of h)).
Proof. intros ps h H. rewrite <- (l5_of h H) at 1. exact (fold_rel _ _ _ _ _ l5 sha1_rel ps (q5_of h)). Qed.
Lemma fold_sha2 : forall P ps h, length h = 8%nat ->
  fold_left (sha2_compress_l P) ps h = list_of_q8 (fold_left (sha2_compress P) ps (q8_of h)).
Proof. intros P ps h H. rewrite <- (l8_of h H) at 1. exact (fold_rel _ _ _ _ _ list_of_q8 (sha2_rel P) ps (q8_of h)). Qed.

Lemma padded_ext : forall b f g g' m, (g (8 * N.of_nat (length m)) = g' (8 * N.of_nat (length m))) ->
  padded b f g m = padded b f g' m.
Proof. intros. unfold padded. now rewrite H. Qed.

Lemma md5_iv_eq : q4_of (a_iv (alg_of MD5)) = md5_iv.
Proof. vm_compute. reflexivity. Qed.
Lemma sha1_iv_eq : q5_of (a_iv (alg_of SHA1)) = sha1_iv.
Proof. vm_compute. reflexivity. Qed.
Lemma sha224_iv_eq : q8_of (a_iv (alg_of SHA224)) = sha224_iv.
Proof. vm_compute. reflexivity. Qed.
Lemma sha256_iv_eq : q8_of (a_iv (alg_of SHA256)) = sha256_iv.
Proof. vm_compute. reflexivity. Qed.
Lemma sha512_iv_eq : q8_of (a_iv (alg_of SHA512)) = sha512_iv.
Proof. vm_compute. reflexivity. Qed.

(* messages for which the code's 64-bit length field is the standard's *)

Lemma code_hash_spec : forall a m, in_domain a m -> code_hash a (a_iv (alg_of a)) 0 m = spec_hash a m.
Proof.
  intros a m Hdom. unfold code_hash, code_padded, digest_bytes, blocks.
  destruct a; cbn [spec_hash compress_of].
  - unfold md5, iterate, md5_padded.
    rewrite (padded_ext _ _ _ (le_bytes 8)).
    2: { change (word_bytes MD5 (field MD5)) with (le_bytes 8). rewrite N.mul_0_r, N.add_0_l. apply le_bytes_mod. cbn. lia. }
    rewrite fold_md5 by reflexivity. rewrite md5_iv_eq. change (bsz MD5) with 64%nat. change (N.of_nat (field MD5)) with 8.
    change (a_bs (alg_of MD5)) with 64.
    destruct (fold_left md5_compress _ _) as [[[x0 x1] x2] x3].
    change (word_bytes MD5 (wbytes MD5)) with (le_bytes 4). change (a_outw (alg_of MD5)) with 4%nat.
    cbn [l4 firstn map concat]. now rewrite app_nil_r.
  - unfold sha1, iterate, sha1_padded.
    rewrite (padded_ext _ _ _ (be_bytes 8)).
    2: { change (word_bytes SHA1 (field SHA1)) with (be_bytes 8). rewrite N.mul_0_r, N.add_0_l. unfold be_bytes. f_equal. apply le_bytes_mod. cbn. lia. }
    rewrite fold_sha1 by reflexivity. rewrite sha1_iv_eq. change (bsz SHA1) with 64%nat. change (N.of_nat (field SHA1)) with 8.
    change (a_bs (alg_of SHA1)) with 64.
    destruct (fold_left sha1_compress _ _) as [[[[x0 x1] x2] x3] x4]. reflexivity.
  - unfold sha224, iterate, sha256_padded.
    rewrite (padded_ext _ _ _ (be_bytes 8)).
    2: { change (word_bytes SHA224 (field SHA224)) with (be_bytes 8). rewrite N.mul_0_r, N.add_0_l. unfold be_bytes. f_equal. apply le_bytes_mod. cbn. lia. }
    rewrite fold_sha2 by reflexivity. rewrite sha224_iv_eq. reflexivity.
  - unfold sha256, iterate, sha256_padded.
    rewrite (padded_ext _ _ _ (be_bytes 8)).
    2: { change (word_bytes SHA256 (field SHA256)) with (be_bytes 8). rewrite N.mul_0_r, N.add_0_l. unfold be_bytes. f_equal. apply le_bytes_mod. cbn. lia. }
    rewrite fold_sha2 by reflexivity. rewrite sha256_iv_eq. change (bsz SHA256) with 64%nat. change (N.of_nat (field SHA256)) with 8.
    change (a_bs (alg_of SHA256)) with 64.
    destruct (fold_left (sha2_compress sha2_32) _ _) as [[[[[[[x0 x1] x2] x3] x4] x5] x6] x7]. reflexivity.
  - unfold sha512, iterate, sha512_padded.
    rewrite (padded_ext _ _ _ (be_bytes 16)).
    2: { change (word_bytes SHA512 (field SHA512)) with (be_bytes 16). rewrite N.mul_0_r, N.add_0_l. f_equal. apply N.mod_small.
         specialize (Hdom eq_refl). change (2 ^ 64) with (8 * 2 ^ 61). lia. }
    rewrite fold_sha2 by reflexivity. rewrite sha512_iv_eq. change (bsz SHA512) with 128%nat. change (N.of_nat (field SHA512)) with 16.
    change (a_bs (alg_of SHA512)) with 128.
    destruct (fold_left (sha2_compress sha2_64) _ _) as [[[[[[[x0 x1] x2] x3] x4] x5] x6] x7]. reflexivity.
Qed.

Lemma spec_hash_length : forall a m, in_domain a m -> length (spec_hash a m) = N.to_nat (a_hs (alg_of a)).
Proof. intros. rewrite <- code_hash_spec by assumption. apply digest_bytes_length, blocks_ok, iv_ok. Qed.

Lemma code_hash_lib : forall a m, code_hash a (a_iv (alg_of a)) 0 m = lib_hash a m.
Proof.
  intros a m. destruct a; cbn [lib_hash]; try (apply code_hash_spec; discriminate).
  unfold code_hash, code_padded, digest_bytes, blocks. cbn [compress_of].
  unfold sha512_len64, iterate, sha512_len64_padded.
  rewrite (padded_ext _ _ _ (fun bits => be_bytes 16 (bits mod 2 ^ 64))).
  2: { change (word_bytes SHA512 (field SHA512)) with (be_bytes 16). rewrite N.mul_0_r, N.add_0_l. reflexivity. }
  rewrite fold_sha2 by reflexivity. rewrite sha512_iv_eq. change (bsz SHA512) with 128%nat. change (N.of_nat (field SHA512)) with 16.
  change (a_bs (alg_of SHA512)) with 128.
  destruct (fold_left (sha2_compress sha2_64) _ _) as [[[[[[[x0 x1] x2] x3] x4] x5] x6] x7]. reflexivity.
Qed.
Lemma lib_hash_spec : forall a m, in_domain a m -> lib_hash a m = spec_hash a m.
Proof. intros. rewrite <- code_hash_lib. now apply code_hash_spec. Qed.
