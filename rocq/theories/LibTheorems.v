(* The properties of the library, from the facts of LibProofs.v; the theorems are in the Prop files. *)
From Coq Require Import Arith NArith ZArith List Lia Bool.
From Verif Require Import Words Spec Tables Transform Machine Context Hash History WordFacts BlockFacts ShaFacts
  MachineFacts TransformFacts ContextFacts DigestFacts ReprFacts HashFacts HmacFacts HistoryFacts LibProofs.
Import ListNotations.
Open Scope N_scope.
Arguments alg_of : simpl never.
Arguments N.mul : simpl never.
Arguments N.add : simpl never.
Arguments N.pow : simpl never.

Lemma cdig_lib : forall a m, cdig a m = lib_hash a m.
Proof. intros. apply code_hash_lib. Qed.
Lemma lib_hash_length : forall a m, length (lib_hash a m) = N.to_nat (digest_size a).
Proof. intros. rewrite <- cdig_lib, digest_size_eq. apply code_hash_length, iv_ok. Qed.
Lemma lib_hash_bytes : forall a m, Forall is_byte (lib_hash a m).
Proof. intros. rewrite <- cdig_lib. apply code_hash_bytes. Qed.
Lemma key_ext : forall H H' b k, (forall m, H m = H' m) -> hmac_key H b k = hmac_key H' b k.
Proof. intros H H' b k X. unfold hmac_key. now rewrite !X. Qed.
Lemma code_key_lib : forall a k, code_hmac_key a k = hmac_key (lib_hash a) (N.to_nat (block_size a)) k.
Proof. intros. unfold code_hmac_key. change (hmac_block_size a) with (block_size a). apply key_ext. intros. apply code_hash_lib. Qed.
Lemma inner_lib : forall a k t, code_inner a k t = lib_hash a (map (N.lxor 0x36) k ++ t).
Proof. intros. apply code_hash_lib. Qed.
Lemma cmac_lib : forall a k m, cmac a k m = lib_hmac a k m.
Proof.
  intros. unfold cmac, code_outer. rewrite inner_lib. unfold lib_hmac, hmac. rewrite code_key_lib. apply code_hash_lib.
Qed.

Lemma lib_key_length : forall a k, length (hmac_key (lib_hash a) (N.to_nat (block_size a)) k) = N.to_nat (block_size a).
Proof. intros. rewrite <- code_key_lib. apply code_key_length. Qed.

Lemma lib_hmac_spec : forall a k m, in_domain a k -> (a = SHA512 -> 128 + N.of_nat (length m) < 2 ^ 61) ->
  lib_hmac a k m = spec_hmac a k m.
Proof.
  intros a k m Hk Hm. unfold lib_hmac, spec_hmac, hmac.
  assert (K : hmac_key (lib_hash a) (N.to_nat (block_size a)) k = hmac_key (spec_hash a) (N.to_nat (block_size a)) k).
  { unfold hmac_key. rewrite (lib_hash_spec a k Hk). reflexivity. }
  pose proof (lib_key_length a k) as L. rewrite K in *. set (K0 := hmac_key (spec_hash a) (N.to_nat (block_size a)) k) in *.
  assert (I : lib_hash a (map (N.lxor 0x36) K0 ++ m) = spec_hash a (map (N.lxor 0x36) K0 ++ m)).
  { apply lib_hash_spec. intros ->. specialize (Hm eq_refl). rewrite app_length, map_length, L. change (block_size SHA512) with 128. lia. }
  pose proof (lib_hash_length a (map (N.lxor 0x36) K0 ++ m)) as LI. rewrite I in *. apply lib_hash_spec.
  intros ->. rewrite app_length, map_length, L, LI. change (block_size SHA512) with 128. change (digest_size SHA512) with 64. lia.
Qed.

Lemma bytes_at_length : forall s p n, accessible s p n -> length (bytes_at s p n) = N.to_nat n.
Proof. intros s p n (l & Hl & H). unfold bytes_at. rewrite Hl, firstn_length, skipn_length. lia. Qed.

Lemma ssize_32 : forall E, plat64 E = false -> ssize_max E < 2 ^ 31.
Proof. intros E H. unfold ssize_max. rewrite H. reflexivity. Qed.

(* ----------------------------------------------------------- C01-C05, C14 *)

Lemma calc_lib : forall a E buffer size hash hash_size e s,
  good_state s -> arg s buffer size -> arg s hash hash_size ->
  exists r s', calculate E a buffer size hash hash_size e s = Done r s' /\
  ((r = 1%Z /\ hash_args E a buffer size hash hash_size /\ all_allocs_ok E s s' /\
    exists bp hp, buffer = Some bp /\ hash = Some hp /\ bytes_at s' hp (digest_size a) = lib_hash a (bytes_at s bp size))
   \/ (r = (-1)%Z /\ (some_alloc_failed E s s' \/ ~ hash_args E a buffer size hash hash_size))).
Proof.
  intros a E buffer size hash hash_size e s G HB HH.
  destruct (calculate_full E a buffer size hash hash_size e s G HB HH) as (r & s' & HR & HL & HC).
  exists r, s'. split; [exact HR|].
  destruct HC as [(-> & _ & HO & HG & bp & hp & -> & -> & HD & _)|(-> & _ & _ & HW)].
  - left. split; [reflexivity|]. split; [exact HG|]. split; [exact HO|]. exists bp, hp. split; [reflexivity|]. split; [reflexivity|]. rewrite HD. apply cdig_lib.
  - right. auto.
Qed.

Lemma calc_spec : forall a E buffer size hash hash_size e s,
  good_state s -> arg s buffer size -> arg s hash hash_size ->
  (a = SHA512 -> plat64 E = false \/ size < 2 ^ 61) ->
  exists r s', calculate E a buffer size hash hash_size e s = Done r s' /\
  ((r = 1%Z /\ hash_args E a buffer size hash hash_size /\ all_allocs_ok E s s' /\
    exists bp hp, buffer = Some bp /\ hash = Some hp /\ bytes_at s' hp (digest_size a) = spec_hash a (bytes_at s bp size))
   \/ (r = (-1)%Z /\ (some_alloc_failed E s s' \/ ~ hash_args E a buffer size hash hash_size))).
Proof.
  intros a E buffer size hash hash_size e s G HB HH HD.
  destruct (calculate_full E a buffer size hash hash_size e s G HB HH) as (r & s' & HR & HL & HC).
  exists r, s'. split; [exact HR|].
  destruct HC as [(-> & _ & HO & HG & bp & hp & -> & -> & HX & _)|(-> & _ & _ & HW)].
  - left. split; [reflexivity|]. split; [exact HG|]. split; [exact HO|]. destruct HG as (_ & _ & HS & _). exists bp, hp. split; [reflexivity|]. split; [reflexivity|]. rewrite HX, cdig_lib.
    apply lib_hash_spec. intros Ha. rewrite bytes_at_length by exact HB. rewrite N2Nat.id.
    destruct (HD Ha) as [HP|HP]; [|exact HP]. pose proof (ssize_32 E HP). lia.
  - right. auto.
Qed.

(* --------------------------------------------------------------------- C06 *)

Lemma hmac_lib : forall a E key key_size buffer size hm hmac_size e s,
  good_state s -> arg s key key_size -> arg s buffer size -> arg s hm hmac_size ->
  exists r s', calculate_hmac E a key key_size buffer size hm hmac_size e s = Done r s' /\
  ((r = 1%Z /\ hmac_args E a key key_size buffer size hm hmac_size /\ all_allocs_ok E s s' /\
    exists kp bp hp, key = Some kp /\ buffer = Some bp /\ hm = Some hp /\
    bytes_at s' hp (digest_size a) = lib_hmac a (bytes_at s kp key_size) (bytes_at s bp size))
   \/ (r = (-1)%Z /\ (some_alloc_failed E s s' \/ ~ hmac_args E a key key_size buffer size hm hmac_size))).
Proof.
  intros a E key key_size buffer size hm hmac_size e s G HK HB HH.
  destruct (hmac_full E a key key_size buffer size hm hmac_size e s G HK HB HH) as (r & s' & HR & _ & _ & HC).
  exists r, s'. split; [exact HR|].
  destruct HC as [(-> & _ & HO & HG & _ & kp & bp & hp & -> & -> & -> & HD & _)|(-> & _ & HW & _)].
  - left. split; [reflexivity|]. split; [exact HG|]. split; [exact HO|]. exists kp, bp, hp. do 3 (split; [reflexivity|]). rewrite HD. apply cmac_lib.
  - right. auto.
Qed.

Lemma hmac_spec : forall a E key key_size buffer size hm hmac_size e s,
  good_state s -> arg s key key_size -> arg s buffer size -> arg s hm hmac_size ->
  (a = SHA512 -> plat64 E = false \/ (key_size < 2 ^ 61 /\ 128 + size < 2 ^ 61)) ->
  exists r s', calculate_hmac E a key key_size buffer size hm hmac_size e s = Done r s' /\
  ((r = 1%Z /\ hmac_args E a key key_size buffer size hm hmac_size /\ all_allocs_ok E s s' /\
    exists kp bp hp, key = Some kp /\ buffer = Some bp /\ hm = Some hp /\
    bytes_at s' hp (digest_size a) = spec_hmac a (bytes_at s kp key_size) (bytes_at s bp size))
   \/ (r = (-1)%Z /\ (some_alloc_failed E s s' \/ ~ hmac_args E a key key_size buffer size hm hmac_size))).
Proof.
  intros a E key key_size buffer size hm hmac_size e s G HK HB HH HD.
  destruct (hmac_full E a key key_size buffer size hm hmac_size e s G HK HB HH) as (r & s' & HR & _ & _ & HC).
  exists r, s'. split; [exact HR|].
  destruct HC as [(-> & _ & HO & HG & _ & kp & bp & hp & -> & -> & -> & HX & _)|(-> & _ & HW & _)].
  - left. split; [reflexivity|]. split; [exact HG|]. split; [exact HO|]. destruct HG as (_ & HS1 & _ & _ & HS2 & _). exists kp, bp, hp. do 3 (split; [reflexivity|]). rewrite HX, cmac_lib.
    assert (HS : a = SHA512 -> key_size < 2 ^ 61 /\ 128 + size < 2 ^ 61).
    { intros Ha. destruct (HD Ha) as [HP|HP]; [|exact HP]. pose proof (ssize_32 E HP). lia. }
    apply lib_hmac_spec.
    + intros Ha. rewrite bytes_at_length by exact HK. rewrite N2Nat.id. now apply HS.
    + intros Ha. rewrite bytes_at_length by exact HB. rewrite N2Nat.id. now apply HS.
  - right. auto.
Qed.

(* ---------------------------------------------------------------- C07, C27 *)

Lemma pieces_lib : forall E a oi of ei ef xs hp hash_size s,
  good_state s -> Forall (fun x => arg s (Some (pc_ptr x)) (pc_size x) /\ pc_size x <= ssize_max E) xs ->
  arg s (Some hp) hash_size -> digest_size a <= hash_size <= ssize_max E -> alloc_ok E (tries s) = true ->
  let m := concat (map (piece_bytes s) xs) in
  exists s' q, run E (whole_message oi of ei ef xs hp hash_size) [(a, None)] s =
    Done (OInitialize 0 1 :: map (fun x => OUpdate 0 (piece_bytes s x) 1) xs ++ [OFinalize 0 (lib_hash a m) 1], [(a, Some q)]) s' /\
    bytes_at s' hp (digest_size a) = lib_hash a m /\ (in_domain a m -> lib_hash a m = spec_hash a m).
Proof.
  intros E a oi of ei ef xs hp hash_size s G HX HH HS HA m.
  destruct (whole_ok E a oi of ei ef xs hp hash_size s G HX HH HS HA) as (s' & q & c & os & HR & HB & _).
  exists s', q. rewrite <- cdig_lib. split; [exact HR|]. split; [exact HB|]. rewrite cdig_lib. apply lib_hash_spec.
Qed.

Lemma pieces_count : forall E a oi ei xs s,
  good_state s -> Forall (fun x => arg s (Some (pc_ptr x)) (pc_size x) /\ pc_size x <= ssize_max E) xs ->
  alloc_ok E (tries s) = true ->
  let m := concat (map (piece_bytes s) xs) in
  exists os q s1 c, run E (CInitialize oi (Var 0) ei :: map piece_call xs) [(a, None)] s = Done (os, [(a, Some q)]) s1 /\
    get_obj s1 q = Some (OCtx a c) /\ c_boff c < block_size a /\ c_boff c = N.of_nat (length m) mod block_size a /\
    (c_count c + c_boff c) mod 2 ^ 64 = N.of_nat (length m) mod 2 ^ 64.
Proof.
  intros E a oi ei xs s G HX HA m. apply good_wf in G.
  pose proof (proj1 (wf_cells s) G) as Ho.
  assert (HI : do_initialize E oi a (Some None) ei s = Done (1%Z, Some (length (mem s)))
     (st (mem s) [mk_cell true Heap (OCtx a (init_ctx a))] (S (tries s)) (errs s) (resid s))).
  { pose proof (initialize_eq E a ei s) as HR. rewrite HA in HR.
    destruct oi; cbn [do_initialize]; [|exact HR]. unfold hash_initialize. erewrite bind_done by exact HR. reflexivity. }
  destruct (pieces_st E a (mem s) xs (S (tries s)) (errs s) (resid s) (init_ctx a) [] (length (mem s)) eq_refl Ho (init_repr a)) as (rs' & c' & HR & HC).
  { eapply Forall_impl; [|exact HX]. intros x [X1 X2]. split; [|assumption]. now apply argl_eq. }
  assert (EQ : map (fun x => bytesl (mem s) (pc_ptr x) (pc_size x)) xs = map (piece_bytes s) xs).
  { apply map_ext. intros x. apply bytesl_eq. }
  cbn [app] in HC. rewrite EQ in HC. fold m in HC.
  do 4 eexists. split.
  - cbn [run run_call nth_error lift]. rewrite bind_assoc, bind_ret. cbn [fst snd]. rewrite bind_assoc. erewrite bind_done by exact HI.
    rewrite bind_ret. cbn [fst snd replace]. erewrite bind_done by exact HR. reflexivity.
  - cbn [fst snd]. split.
    { rewrite <- (Nat.add_0_r (length (mem s))). eapply get_st_new. reflexivity. }
    assert (EB : block_size a = N.of_nat (bsz a)) by (destruct a; reflexivity).
    assert (HB : c_boff c' = N.of_nat (length m) mod block_size a).
    { rewrite (re_boff _ _ _ _ _ HC), dn_rest, EB, Nat2N.inj_mod. reflexivity. }
    split; [rewrite HB; apply N.mod_lt; destruct a; discriminate|]. split; [exact HB|].
    rewrite (re_count _ _ _ _ _ HC), (re_boff _ _ _ _ _ HC), N.add_mod_idemp_l by discriminate. f_equal.
    pose proof (dn_le a (length m)). lia.
Qed.

(* --------------------------------------------------------------------- C09 *)

Lemma cstale_zero : forall a m, cstale a m = zero_iv_hash a m.
Proof.
  intros a m. unfold cstale, code_hash, code_padded, digest_bytes, blocks.
  destruct a; cbn [zero_iv_hash compress_of].
  - unfold iterate, md5_padded.
    rewrite (padded_ext _ _ _ (le_bytes 8)).
    2: { change (word_bytes MD5 (field MD5)) with (le_bytes 8). rewrite N.mul_0_r, N.add_0_l. apply le_bytes_mod. cbn. lia. }
    rewrite fold_md5 by reflexivity. change (q4_of (repeat 0 (nh MD5))) with (0, 0, 0, 0).
    change (bsz MD5) with 64%nat. change (N.of_nat (field MD5)) with 8.
    change (a_bs (alg_of MD5)) with 64.
    destruct (fold_left md5_compress _ _) as [[[x0 x1] x2] x3].
    change (word_bytes MD5 (wbytes MD5)) with (le_bytes 4). change (a_outw (alg_of MD5)) with 4%nat.
    cbn [l4 firstn map concat]. now rewrite app_nil_r.
  - unfold iterate, sha1_padded.
    rewrite (padded_ext _ _ _ (be_bytes 8)).
    2: { change (word_bytes SHA1 (field SHA1)) with (be_bytes 8). rewrite N.mul_0_r, N.add_0_l. unfold be_bytes. f_equal. apply le_bytes_mod. cbn. lia. }
    rewrite fold_sha1 by reflexivity. change (q5_of (repeat 0 (nh SHA1))) with (0, 0, 0, 0, 0).
    change (bsz SHA1) with 64%nat. change (N.of_nat (field SHA1)) with 8.
    change (a_bs (alg_of SHA1)) with 64.
    destruct (fold_left sha1_compress _ _) as [[[[x0 x1] x2] x3] x4]. reflexivity.
  - unfold iterate, sha256_padded.
    rewrite (padded_ext _ _ _ (be_bytes 8)).
    2: { change (word_bytes SHA224 (field SHA224)) with (be_bytes 8). rewrite N.mul_0_r, N.add_0_l. unfold be_bytes. f_equal. apply le_bytes_mod. cbn. lia. }
    rewrite fold_sha2 by reflexivity. change (q8_of (repeat 0 (nh SHA224))) with (0, 0, 0, 0, 0, 0, 0, 0).
    change (bsz SHA224) with 64%nat. change (N.of_nat (field SHA224)) with 8.
    change (a_bs (alg_of SHA224)) with 64.
    destruct (fold_left (sha2_compress sha2_32) _ _) as [[[[[[[x0 x1] x2] x3] x4] x5] x6] x7]. reflexivity.
  - unfold iterate, sha256_padded.
    rewrite (padded_ext _ _ _ (be_bytes 8)).
    2: { change (word_bytes SHA256 (field SHA256)) with (be_bytes 8). rewrite N.mul_0_r, N.add_0_l. unfold be_bytes. f_equal. apply le_bytes_mod. cbn. lia. }
    rewrite fold_sha2 by reflexivity. change (q8_of (repeat 0 (nh SHA256))) with (0, 0, 0, 0, 0, 0, 0, 0).
    change (bsz SHA256) with 64%nat. change (N.of_nat (field SHA256)) with 8.
    change (a_bs (alg_of SHA256)) with 64.
    destruct (fold_left (sha2_compress sha2_32) _ _) as [[[[[[[x0 x1] x2] x3] x4] x5] x6] x7]. reflexivity.
  - unfold iterate, sha512_len64_padded.
    rewrite (padded_ext _ _ _ (fun bits => be_bytes 16 (bits mod 2 ^ 64))).
    2: { change (word_bytes SHA512 (field SHA512)) with (be_bytes 16). rewrite N.mul_0_r, N.add_0_l. reflexivity. }
    rewrite fold_sha2 by reflexivity. change (q8_of (repeat 0 (nh SHA512))) with (0, 0, 0, 0, 0, 0, 0, 0).
    change (bsz SHA512) with 128%nat. change (N.of_nat (field SHA512)) with 16.
    change (a_bs (alg_of SHA512)) with 128.
    destruct (fold_left (sha2_compress sha2_64) _ _) as [[[[[[[x0 x1] x2] x3] x4] x5] x6] x7]. reflexivity.
Qed.

Lemma accepts_ext : forall f f' g g', (forall m, f m = f' m) -> (forall m, g m = g' m) ->
  forall os i x, accepts f g x i os -> accepts f' g' x i os.
Proof.
  intros f f' g g' Hf Hg. induction os as [|o os IH]; intros i x X; [exact Logic.I|].
  destruct o; cbn [accepts] in *; try (now apply IH).
  - destruct (Nat.eqb i i0); [|now apply IH]. destruct x.
    + destruct X as [X1 X2]. split; [assumption|now apply IH].
    + destruct X as [[X1 X2]|[X1 X2]]; [left|right]; split; try assumption; now apply IH.
  - destruct (Nat.eqb i i0); [|now apply IH]. destruct X as [X1 X2]. split; [assumption|now apply IH].
  - destruct (Nat.eqb i i0); [|now apply IH]. destruct x as [[b m]|].
    + destruct X as [[X1 X2]|[X1 X2]]; [left|right]; split; try assumption; now apply IH.
    + destruct X as [X1 X2]. split; [assumption|now apply IH].
  - destruct (Nat.eqb i i0); [|now apply IH]. destruct x as [[b m]|].
    + destruct X as [(X1 & X2 & X3)|[X1 X2]]; [left|right].
      * split; [assumption|]. split; [|now apply IH]. destruct b; [now rewrite <- Hf|now rewrite <- Hg].
      * split; [assumption|now apply IH].
    + destruct X as [X1 X2]. split; [assumption|now apply IH].
Qed.

Lemma any_program : forall E s vs h, good_state s -> Forall (fun v => snd v = None) vs -> Forall (valid_call s vs) h ->
  exists os vs' s', run E h vs s = Done (os, vs') s' /\ length os = length h /\ map fst vs' = map fst vs /\
  Forall (one_shot_ok lib_hash lib_hmac) os /\
  (forall i a p, nth_error vs i = Some (a, p) -> accepts (lib_hash a) (zero_iv_hash a) None i os) /\
  good_state s' /\ kept_sizes s s' /\
  (forall i a p, nth_error vs' i = Some (a, Some p) -> (length (mem s) <= p)%nat /\ heap_ctx s' a p) /\
  (forall i j a b p, nth_error vs' i = Some (a, Some p) -> nth_error vs' j = Some (b, Some p) -> i = j) /\
  (forall p c, (length (mem s) <= p)%nat -> nth_error (mem s') p = Some c -> live c = true ->
     exists i a, nth_error vs' i = Some (a, Some p)).
Proof.
  intros E s vs h G HN HV. apply good_wf in G.
  destruct (run_any E s h vs _ s (inv_start s vs G HN) HV) as (os & vs' & s' & xs' & HR & HI & HF & HL & HO & HT & HA).
  exists os, vs', s'. split; [exact HR|]. split; [exact HL|]. split; [exact HF|]. split.
  { eapply Forall_impl; [|exact HO]. intros [] H; cbn in *; rewrite <- ?cdig_lib, <- ?cmac_lib; exact H. }
  split.
  { intros i a p Hi. eapply accepts_ext; [intros; apply cdig_lib|intros; apply cstale_zero|].
    eapply HA; [exact Hi|]. erewrite map_nth_error by exact Hi. reflexivity. }
  split.
  { apply good_wf, wf_cells. exact (i_ok _ _ _ _ HI). }
  split.
  { intros p c Hp. destruct (i_old _ _ _ _ HI p c Hp) as (c' & Hc' & K1 & K2 & K3). exists c'.
    split; [exact Hc'|]. split; [exact K1|]. split; [exact K2|exact K3]. }
  split.
  { intros i a p Hi. destruct (i_vars _ _ _ _ HI i a (Some p) Hi) as (x & _ & V). destruct x as [[f m]|]; [|contradiction].
    destruct V as (Hp & c & Hc & _). split; [exact Hp|]. exists c. exact Hc. }
  split; [exact (i_inj _ _ _ _ HI)|exact (i_own _ _ _ _ HI)].
Qed.

(* --------------------------------------------------------------- C10 - C12 *)

Lemma one_ne : (1 <> -1)%Z. Proof. discriminate. Qed.

Lemma update_decides : forall E old a p b n e s, good_state s -> ctx_arg s a p -> arg s b n ->
  exists r s', do_update E old a p b n e s = Done r s' /\ (r = 1%Z \/ r = (-1)%Z) /\
  (r = (-1)%Z <-> p = None \/ b = None \/ ssize_max E < n) /\
  (r = (-1)%Z -> mem s' = mem s /\ tries s' = tries s /\ resid s' = resid s) /\
  (r = 1%Z -> errors_same s s') /\ (r = (-1)%Z -> errors_added e s s').
Proof.
  intros E old a p b n e s G HP HB.
  destruct (update_full E old a p b n e s G HP HB) as (r & s' & HR & [(-> & Hn & q & bp & c & fs & -> & -> & Hc & Hf & ->)|(-> & HW & HE & M1 & M2 & M3)]);
    do 2 eexists; (split; [exact HR|]).
  - split; [auto|]. split; [split; [discriminate|intros [|[|]]; [discriminate|discriminate|lia]]|].
    split; [discriminate|]. split; [|discriminate]. intros _. unfold errors_same, add_frames. cbn [errs]. apply set_obj_errs.
  - split; [auto|]. split; [tauto|]. split; [auto|]. split; [discriminate|auto].
Qed.

Lemma finalize_decides : forall E old a p h n e s, good_state s -> ctx_arg s a p -> arg s h n ->
  exists r s', do_finalize E old a p h n e s = Done r s' /\ (r = 1%Z \/ r = (-1)%Z) /\
  (r = (-1)%Z <-> p = None \/ h = None \/ n < digest_size a \/ ssize_max E < n) /\
  (r = (-1)%Z -> mem s' = mem s /\ tries s' = tries s /\ resid s' = resid s) /\
  (r = 1%Z -> errors_same s s') /\ (r = (-1)%Z -> errors_added e s s').
Proof.
  intros E old a p h n e s G HP HB.
  destruct (finalize_full E old a p h n e s G HP HB) as
    (r & s' & HR & [(-> & Hn & q & hp & c & l & f & -> & -> & Hc & Hl & Hf & Hne & ->)|(-> & HW & HE & M1 & M2 & M3)]);
    do 2 eexists; (split; [exact HR|]).
  - split; [auto|]. split; [split; [discriminate|intros [|[|]]; [discriminate|discriminate|lia]]|].
    split; [discriminate|]. split; [|discriminate]. intros _. unfold errors_same, add_frames. cbn [errs]. now rewrite !set_obj_errs.
  - split; [auto|]. split; [tauto|]. split; [auto|]. split; [discriminate|auto].
Qed.

Lemma initialize_decides : forall E old a v e s,
  exists r v' s', do_initialize E old a v e s = Done (r, v') s' /\ (r = 1%Z \/ r = (-1)%Z) /\
  (r = (-1)%Z <-> v = None \/ (exists q, v = Some (Some q)) \/ alloc_ok E (tries s) = false) /\
  (r = (-1)%Z -> mem s' = mem s) /\
  (r = 1%Z -> errors_same s s') /\ (r = (-1)%Z -> errors_added e s s').
Proof.
  intros E old a v e s.
  destruct (initialize_full E old a v e s) as (r & v' & s' & HR & [(-> & -> & HA & -> & ->)|(-> & HW & -> & HE & M1 & M2 & M3)]);
    do 3 eexists; (split; [exact HR|]).
  - split; [auto|]. split; [split; [discriminate|intros [|[[q H]|]]; congruence]|].
    split; [discriminate|]. split; [reflexivity|discriminate].
  - split; [auto|]. split; [tauto|]. split; [auto|]. split; [discriminate|auto].
Qed.

Lemma free_decides : forall old a v e s, (forall q, v = Some (Some q) -> heap_ctx s a q) ->
  exists r v' s', do_free old a v e s = Done (r, v') s' /\ (r = 1%Z \/ r = (-1)%Z) /\
  (r = (-1)%Z <-> v = None) /\ (r = (-1)%Z -> mem s' = mem s) /\
  (r = 1%Z -> errors_same s s') /\ (r = (-1)%Z -> errors_added e s s').
Proof.
  intros old a v e s HV.
  destruct (free_full old a v e s HV) as (r & v' & s' & HR & -> & _ & _ & [(-> & Hv & HE & _)|(-> & -> & HE & HM)]);
    do 3 eexists; (split; [exact HR|]).
  - split; [auto|]. split; [split; [discriminate|congruence]|]. split; [discriminate|]. split; [auto|discriminate].
  - split; [auto|]. split; [tauto|]. split; [auto|]. split; [discriminate|auto].
Qed.

Lemma calculate_errors : forall E a buffer size hash hash_size e s,
  good_state s -> arg s buffer size -> arg s hash hash_size ->
  exists r s', calculate E a buffer size hash hash_size e s = Done r s' /\ (r = 1%Z \/ r = (-1)%Z) /\
  (r = 1%Z -> errors_same s s') /\ (r = (-1)%Z -> errors_added e s s').
Proof.
  intros E a buffer size hash hash_size e s G HB HH.
  destruct (calculate_full E a buffer size hash hash_size e s G HB HH) as (r & s' & HR & HL & HC).
  exists r, s'. split; [exact HR|].
  destruct HC as [(-> & HE & _)|(-> & HE & _)]; (split; [auto|]); split; auto; discriminate.
Qed.
Lemma hmac_errors : forall E a key key_size buffer size hm hmac_size e s,
  good_state s -> arg s key key_size -> arg s buffer size -> arg s hm hmac_size ->
  exists r s', calculate_hmac E a key key_size buffer size hm hmac_size e s = Done r s' /\ (r = 1%Z \/ r = (-1)%Z) /\
  (r = 1%Z -> errors_same s s') /\ (r = (-1)%Z -> errors_added e s s').
Proof.
  intros E a key key_size buffer size hm hmac_size e s G HK HB HH.
  destruct (hmac_full E a key key_size buffer size hm hmac_size e s G HK HB HH) as (r & s' & HR & _ & _ & HC).
  exists r, s'. split; [exact HR|].
  destruct HC as [(-> & HE & _)|(-> & HE & _)]; (split; [auto|]); split; auto; discriminate.
Qed.

(* -------------------------------------------------------------- C13, C22 *)

Lemma set_cell_other : forall p o s q, p <> q -> nth_error (mem (set_obj p o s)) q = nth_error (mem s) q.
Proof. intros. rewrite set_mem_eq. now apply setl_nth_other. Qed.

Lemma finalize_writes : forall E old a p hp n e s s', good_state s -> ctx_arg s a (Some p) -> arg s (Some hp) n ->
  do_finalize E old a (Some p) (Some hp) n e s = Done 1%Z s' ->
  (exists c', get_obj s' p = Some (OCtx a c') /\ blank c' /\ length (c_hash c') = state_words a /\
     length (c_block c') = (2 * N.to_nat (block_size a))%nat) /\
  length (mem s') = length (mem s) /\
  (forall q, q <> p -> q <> fst hp -> nth_error (mem s') q = nth_error (mem s) q) /\
  exists l l', get_obj s (fst hp) = Some (OBytes l) /\ get_obj s' (fst hp) = Some (OBytes l') /\ length l' = length l /\
    forall i, (N.of_nat i < snd hp \/ snd hp + digest_size a <= N.of_nat i) -> nth_error l' i = nth_error l i.
Proof.
  intros E old a p hp n e s s' G HP HH HR.
  destruct (finalize_full E old a (Some p) (Some hp) n e s G HP HH) as
    (r & s2 & HR2 & [(-> & Hn & q & hp' & c & l & f & Hq & Hh & Hc & Hl & Hf & Hne & ->)|(-> & _)]);
    rewrite HR in HR2; [|discriminate HR2].
  injection Hq as <-. injection Hh as <-. injection HR2 as ->.
  assert (Hs : get_obj (set_obj (fst hp) (OBytes (put l (snd hp) (digest_fn a c))) s) p = Some (OCtx a c)) by (rewrite get_set_other by congruence; exact Hc).
  assert (LD : length (digest_fn a c) = N.to_nat (digest_size a)).
  { rewrite digest_size_eq. apply digest_fn_length. apply good_wf in G. exact (G _ _ Hc). }
  cbn [arg] in HH. destruct HH as (l0 & Hl0 & Hll). assert (l0 = l) by congruence. subst l0.
  split.
  { exists (zero_ctx (alg_of a)). rewrite get_add_frames. split; [eapply get_set_same; exact Hs|]. split; [apply zero_blank|].
    split; unfold zero_ctx; cbn [c_hash c_block]; rewrite repeat_length; destruct a; reflexivity. }
  split; [unfold add_frames; cbn [mem]; rewrite !set_mem_eq, !setl_length; reflexivity|].
  split.
  { intros q Q1 Q2. unfold add_frames. cbn [mem]. now rewrite !set_cell_other by congruence. }
  exists l, (put l (snd hp) (digest_fn a c)). split; [exact Hl|].
  split; [rewrite get_add_frames, get_set_other by congruence; eapply get_set_same; exact Hl|].
  split; [apply put_length; lia|].
  intros i Hi. unfold put. destruct Hi as [Hi|Hi].
  - rewrite nth_error_app1 by (rewrite firstn_length; lia). apply nth_error_firstn'. lia.
  - rewrite nth_error_app2 by (rewrite firstn_length; lia). rewrite firstn_length, Nat.min_l by lia.
    rewrite nth_error_app2 by lia. rewrite nth_error_skipn'. f_equal. lia.
Qed.

Lemma update_writes : forall E old a p b n e s r s', good_state s -> ctx_arg s a (Some p) -> arg s b n ->
  do_update E old a (Some p) b n e s = Done r s' ->
  length (mem s') = length (mem s) /\ (forall q, q <> p -> nth_error (mem s') q = nth_error (mem s) q) /\
  exists c', get_obj s' p = Some (OCtx a c').
Proof.
  intros E old a p b n e s r s' G HP HB HR.
  destruct (update_full E old a (Some p) b n e s G HP HB) as
    (r2 & s2 & HR2 & [(-> & Hn & q & bp & c & fs & Hq & -> & Hc & Hf & ->)|(-> & _ & _ & HM & _)]);
    rewrite HR in HR2; injection HR2 as -> ->.
  - injection Hq as <-.
    assert (X : get_obj (add_frames fs (set_obj p (OCtx a (update_fn a c (bytes_at s bp n))) s)) p = Some (OCtx a (update_fn a c (bytes_at s bp n)))).
    { rewrite get_add_frames. apply (get_set_same _ _ _ _ Hc). }
    split; [|split; [|eauto]]; unfold add_frames; cbn [mem]; rewrite set_mem_eq.
    + apply setl_length.
    + intros q Hq. apply setl_nth_other. congruence.
  - rewrite HM. split; [reflexivity|]. split; [reflexivity|]. destruct HP as [c Hc]. exists c. rewrite <- Hc. now apply get_obj_mem.
Qed.

Lemma calculate_writes : forall E a bp size hp hash_size e s s',
  good_state s -> arg s (Some bp) size -> arg s (Some hp) hash_size ->
  calculate E a (Some bp) size (Some hp) hash_size e s = Done 1%Z s' -> unchanged_but s s' hp (digest_size a).
Proof.
  intros E a bp size hp hash_size e s s' G HB HH HR.
  destruct (calculate_full E a (Some bp) size (Some hp) hash_size e s G HB HH) as (r & s2 & HR2 & _ & HC).
  rewrite HR in HR2. injection HR2 as <- <-.
  destruct HC as [(_ & _ & _ & _ & bp' & hp' & Hb & Hh & _ & HU)|(X & _)]; [|discriminate X]. injection Hh as <-. exact HU.
Qed.
Lemma hmac_writes : forall E a kp key_size bp size hp hmac_size e s s',
  good_state s -> arg s (Some kp) key_size -> arg s (Some bp) size -> arg s (Some hp) hmac_size ->
  calculate_hmac E a (Some kp) key_size (Some bp) size (Some hp) hmac_size e s = Done 1%Z s' -> unchanged_but s s' hp (digest_size a).
Proof.
  intros E a kp key_size bp size hp hmac_size e s s' G HK HB HH HR.
  destruct (hmac_full E a (Some kp) key_size (Some bp) size (Some hp) hmac_size e s G HK HB HH) as (r & s2 & HR2 & _ & _ & HC).
  rewrite HR in HR2. injection HR2 as <- <-.
  destruct HC as [(_ & _ & _ & _ & _ & kp' & bp' & hp' & _ & _ & Hh & _ & HU & _)|(X & _)]; [|discriminate X]. injection Hh as <-. exact HU.
Qed.

(* ---------------------------------------------------------------- C15, C16 *)

Lemma calculate_no_leak : forall E a buffer size hash hash_size e s,
  good_state s -> arg s buffer size -> arg s hash hash_size ->
  exists r s', calculate E a buffer size hash hash_size e s = Done r s' /\ no_leak s s' /\
  (some_alloc_failed E s s' -> r = (-1)%Z).
Proof.
  intros E a buffer size hash hash_size e s G HB HH.
  destruct (calculate_full E a buffer size hash hash_size e s G HB HH) as (r & s' & HR & HL & HC).
  exists r, s'. split; [exact HR|]. split; [exact HL|].
  destruct HC as [(-> & _ & HA & _)|(-> & _)]; [|reflexivity]. intros (i & Hi & Hf). rewrite HA in Hf by exact Hi. discriminate.
Qed.
Lemma hmac_no_leak : forall E a key key_size buffer size hm hmac_size e s,
  good_state s -> arg s key key_size -> arg s buffer size -> arg s hm hmac_size ->
  exists r s', calculate_hmac E a key key_size buffer size hm hmac_size e s = Done r s' /\ no_leak s s' /\
  (some_alloc_failed E s s' -> r = (-1)%Z).
Proof.
  intros E a key key_size buffer size hm hmac_size e s G HK HB HH.
  destruct (hmac_full E a key key_size buffer size hm hmac_size e s G HK HB HH) as (r & s' & HR & HL & _ & HC).
  exists r, s'. split; [exact HR|]. split; [exact HL|].
  destruct HC as [(-> & _ & HA & _)|(-> & _)]; [|reflexivity]. intros (i & Hi & Hf). rewrite HA in Hf by exact Hi. discriminate.
Qed.

(* --------------------------------------------------------------- C17 - C21 *)

Lemma hmac_failing : forall E a key key_size buffer size hm hmac_size e s r s',
  good_state s -> arg s key key_size -> arg s buffer size -> arg s hm hmac_size ->
  calculate_hmac E a key key_size buffer size hm hmac_size e s = Done r s' -> r = (-1)%Z ->
  unchanged s s' \/
  (hmac_args E a key key_size buffer size hm hmac_size /\ some_alloc_failed E s s' /\
   exists kp bp hp, key = Some kp /\ buffer = Some bp /\ hm = Some hp /\ unchanged_but s s' hp (digest_size a) /\
   bytes_at s' hp (digest_size a) =
     lib_hash a (map (N.lxor 0x36) (hmac_key (lib_hash a) (N.to_nat (block_size a)) (bytes_at s kp key_size)) ++ bytes_at s bp size)).
Proof.
  intros E a key key_size buffer size hm hmac_size e s r s' G HK HB HH HR Hr.
  destruct (hmac_full E a key key_size buffer size hm hmac_size e s G HK HB HH) as (r2 & s2 & HR2 & _ & _ & HC).
  rewrite HR in HR2. injection HR2 as <- <-. subst r.
  destruct HC as [(X & _)|(_ & _ & _ & HC)]; [discriminate X|].
  destruct HC as [HC|(HA & HF & kp & bp & hp & -> & -> & -> & HU & HD)]; [now left|right].
  split; [exact HA|]. split; [exact HF|]. exists kp, bp, hp. do 4 (split; [reflexivity||assumption|]).
  rewrite HD, inner_lib, code_key_lib. reflexivity.
Qed.

Lemma hmac_heap : forall E a key key_size buffer size hm hmac_size e s r s',
  good_state s -> arg s key key_size -> arg s buffer size -> arg s hm hmac_size ->
  calculate_hmac E a key key_size buffer size hm hmac_size e s = Done r s' ->
  (forall p c l, (length (mem s) <= p)%nat -> nth_error (mem s') p = Some c -> knd c = Heap -> content c = OBytes l -> Forall (eq 0) l) /\
  (r = 1%Z -> forall p c, (length (mem s) <= p)%nat -> nth_error (mem s') p = Some c -> knd c = Heap -> zero_cell c).
Proof.
  intros E a key key_size buffer size hm hmac_size e s r s' G HK HB HH HR.
  destruct (hmac_full E a key key_size buffer size hm hmac_size e s G HK HB HH) as (r2 & s2 & HR2 & _ & HZ & HC).
  rewrite HR in HR2. injection HR2 as <- <-. split; [exact HZ|]. intros ->.
  destruct HC as [(_ & _ & _ & _ & HC & _)|(X & _)]; [exact HC|discriminate X].
Qed.

Lemma hmac_key_hash : forall E a kp key_size bp size hp hmac_size e s s',
  good_state s -> arg s (Some kp) key_size -> arg s (Some bp) size -> arg s (Some hp) hmac_size ->
  calculate_hmac E a (Some kp) key_size (Some bp) size (Some hp) hmac_size e s = Done 1%Z s' ->
  block_size a < key_size ->
  nth_error (mem s') (length (mem s)) = Some (mk_cell false Stack (OBytes (lib_hash a (bytes_at s kp key_size)))).
Proof.
  intros E a kp key_size bp size hp hmac_size e s s' G HK HB HH HR HS.
  destruct (hmac_full E a (Some kp) key_size (Some bp) size (Some hp) hmac_size e s G HK HB HH) as (r2 & s2 & HR2 & _ & _ & HC).
  rewrite HR in HR2. injection HR2 as <- <-.
  destruct HC as [(_ & _ & _ & _ & _ & kp' & bp' & hp' & Hk & _ & _ & _ & _ & HN)|(X & _)]; [|discriminate X].
  injection Hk as <-. destruct (N.leb_spec key_size (block_size a)); [lia|]. rewrite HN, cdig_lib. reflexivity.
Qed.

Lemma Forall_repeat : forall A (P : A -> Prop) x n, P x -> Forall P (repeat x n).
Proof. intros A P x n H. apply Forall_forall. intros y Hy. apply repeat_spec in Hy. now subst. Qed.

Lemma clean_zero : forall a f, a <> SHA1 -> frame_clean a f -> frame_zero f.
Proof.
  intros a f Ha (H1 & rest & H2 & H3). split.
  - rewrite H1. apply Forall_repeat. reflexivity.
  - assert (rest = []) as ->. { destruct a; try congruence; destruct rest; try reflexivity; discriminate H3. }
    rewrite H2, app_nil_r. apply Forall_repeat. reflexivity.
Qed.
Lemma clean_sha1 : forall f, frame_clean SHA1 f -> Forall (eq 0) (f_hash_values f) /\ Forall (eq 0) (firstn 16 (f_values f)).
Proof.
  intros f (H1 & rest & H2 & H3). split.
  - rewrite H1. apply Forall_repeat. reflexivity.
  - change (a_ncl (alg_of SHA1)) with 16%nat in H2. rewrite H2.
    change (firstn 16 (repeat 0 16 ++ rest)) with (repeat 0 16). apply Forall_repeat. reflexivity.
Qed.

Lemma new_frames_app : forall s s' fs, resid s' = resid s ++ fs -> new_frames s s' = fs.
Proof. intros s s' fs H. unfold new_frames. rewrite H, skipn_app, skipn_all, Nat.sub_diag. reflexivity. Qed.

Lemma update_scratch : forall E old a p b n e s r s', good_state s -> ctx_arg s a p -> arg s b n ->
  do_update E old a p b n e s = Done r s' ->
  exists fs, resid s' = resid s ++ fs /\ Forall (frame_clean a) fs.
Proof.
  intros E old a p b n e s r s' G HP HB HR.
  destruct (update_full E old a p b n e s G HP HB) as
    (r2 & s2 & HR2 & [(-> & Hn & q & bp & c & fs & -> & -> & Hc & Hf & ->)|(-> & _ & _ & HM & _ & HS)]);
    rewrite HR in HR2; injection HR2 as -> ->.
  - exists fs. split; [|exact Hf]. unfold add_frames. cbn [resid]. now rewrite set_obj_resid.
  - exists []. split; [now rewrite app_nil_r|apply Forall_nil].
Qed.
Lemma finalize_scratch : forall E old a p h n e s r s', good_state s -> ctx_arg s a p -> arg s h n ->
  do_finalize E old a p h n e s = Done r s' ->
  exists fs, resid s' = resid s ++ fs /\ Forall (frame_clean a) fs.
Proof.
  intros E old a p h n e s r s' G HP HB HR.
  destruct (finalize_full E old a p h n e s G HP HB) as
    (r2 & s2 & HR2 & [(-> & Hn & q & hp & c & l & f & -> & -> & Hc & Hl & Hf & Hne & ->)|(-> & _ & _ & HM & _ & HS)]);
    rewrite HR in HR2; injection HR2 as -> ->.
  - exists [f]. split; [|apply Forall_cons; [exact Hf|apply Forall_nil]]. unfold add_frames. cbn [resid]. now rewrite !set_obj_resid.
  - exists []. split; [now rewrite app_nil_r|apply Forall_nil].
Qed.
Lemma calculate_scratch : forall E a b n h hn e s r s', good_state s -> arg s b n -> arg s h hn ->
  calculate E a b n h hn e s = Done r s' ->
  exists fs, resid s' = resid s ++ fs /\ Forall (frame_clean a) fs.
Proof.
  intros E a b n h hn e s r s' G HB HH HR. apply good_wf in G.
  destruct (calculate_cases E a b n h hn e s G HB HH) as
    [(Eal & HR2)|[(Eal & ks & c & fs & HE & Hfs & HR2)|(Eal & HE & bp & hp & l & fs & -> & -> & Hl & Hfs & HR2)]];
    rewrite HR in HR2; injection HR2 as -> ->; cbn [resid]; [exists []; rewrite app_nil_r; split; [reflexivity|apply Forall_nil]|eauto|eauto].
Qed.
Lemma hmac_scratch : forall E a k kn b n h hn e s r s', good_state s -> arg s k kn -> arg s b n -> arg s h hn ->
  calculate_hmac E a k kn b n h hn e s = Done r s' ->
  exists fs, resid s' = resid s ++ fs /\ Forall (frame_clean a) fs.
Proof.
  intros E a k kn b n h hn e s r s' G HK HB HH HR. apply good_wf in G.
  destruct (hmac_st E a k kn b n h hn e (mem s) (tries s) (errs s) (resid s)) as
    (r2 & old' & news' & khl & t' & ks & fs & HR2 & HL & Hfs & Ht & HE);
    try (apply wf_cells; assumption); try (apply argl_eq; assumption).
  rewrite <- st_of in HR2. rewrite HR in HR2. injection HR2 as -> ->. cbn [st resid]. eauto.
Qed.

(* -------------------------------------------------------------------- C25 *)

Lemma initialize_pointer : forall E old a v e s r v' s',
  do_initialize E old a (Some v) e s = Done (r, v') s' ->
  (r = 1%Z -> v = None /\ v' = Some (length (mem s)) /\ get_obj s (length (mem s)) = None /\
     (exists c, nth_error (mem s') (length (mem s)) = Some (mk_cell true Heap (OCtx a c)) /\ good_ctx a c) /\
     length (mem s') = S (length (mem s)) /\ unchanged s s') /\
  (r <> 1%Z -> v' = v /\ mem s' = mem s) /\
  (v <> None -> r = (-1)%Z).
Proof.
  intros E old a v e s r v' s' HR.
  destruct (initialize_full E old a (Some v) e s) as (r2 & v2 & s2 & HR2 & [(-> & Hv & HA & -> & ->)|(-> & HW & -> & HE & M1 & M2 & M3)]);
    rewrite HR in HR2; injection HR2 as -> -> ->.
  - injection Hv as ->. split; [|split; [congruence|congruence]]. intros _. do 2 (split; [reflexivity|]). split.
    { unfold get_obj. rewrite (proj2 (nth_error_None (mem s) (length (mem s)))) by lia. reflexivity. }
    split.
    { exists (init_ctx a). split; [|apply good_ctx_wf, init_wf]. unfold tick, new_cell. cbn [mem]. rewrite nth_error_app2, Nat.sub_diag by lia. reflexivity. }
    split; [unfold tick, new_cell; cbn [mem]; rewrite app_length; cbn; lia|].
    intros p c Hp. unfold tick, new_cell. cbn [mem]. rewrite nth_error_app1 by (eapply nth_lt; eassumption). exact Hp.
  - split; [discriminate|]. split; [auto|reflexivity].
Qed.

Lemma free_pointer : forall old a v e s, (forall q, v = Some q -> heap_ctx s a q) ->
  exists s', do_free old a (Some v) e s = Done (1%Z, None) s' /\ errors_same s s' /\
  (v = None -> s' = s) /\
  (forall q, v = Some q -> get_obj s' q = None /\ (forall p, p <> q -> nth_error (mem s') p = nth_error (mem s) p) /\
     forall e', do_free old a (Some None) e' s' = Done (1%Z, None) s').
Proof.
  intros old a v e s HV.
  destruct (free_full old a (Some v) e s) as (r & v' & s' & HR & -> & _ & _ & [(-> & Hv & HE & H1 & H2)|(_ & X & _)]).
  { intros q Hq. injection Hq as ->. now apply HV. }
  - exists s'. split; [exact HR|]. split; [exact HE|]. split; [intros ->; now apply H1|].
    intros q ->. destruct (H2 q eq_refl) as [A B]. split; [exact A|]. split; [exact B|]. intros e'. destruct old; reflexivity.
  - discriminate X.
Qed.

(* -------------------------------------------------------------------- C26 *)


Lemma more_none : forall e k s, more_errors e 1 k s = s.
Proof. intros. unfold more_errors. cbn. rewrite andb_false_r. now destruct s. Qed.
Lemma more_one : forall e k s, add_err e k s = more_errors e (-1) k s.
Proof. intros. unfold more_errors, add_err. destruct e; reflexivity. Qed.

Lemma update_names : forall E a p b n e s, good_state s -> ctx_arg s a p -> arg s b n ->
  exists r s', context_update E a p b n e s = Done r s' /\ hash_update E a p b n e s = Done r (more_errors e r E_RUNTIME_SET_FAILED s').
Proof.
  intros E a p b n e s G HP HB.
  destruct (update_decides E false a p b n e s G HP HB) as (r & s' & HR & Hr & _). cbn [do_update] in HR.
  exists r, s'. split; [exact HR|]. unfold hash_update. erewrite bind_done by exact HR.
  destruct Hr as [-> | ->]; cbn [Z.eqb Pos.eqb]; [rewrite more_none; reflexivity|rewrite fail_eq, more_one; reflexivity].
Qed.
Lemma finalize_names : forall E a p h n e s, good_state s -> ctx_arg s a p -> arg s h n ->
  exists r s', context_finalize E a p h n e s = Done r s' /\ hash_finalize E a p h n e s = Done r (more_errors e r E_RUNTIME_FINALIZE_FAILED s').
Proof.
  intros E a p h n e s G HP HB.
  destruct (finalize_decides E false a p h n e s G HP HB) as (r & s' & HR & Hr & _). cbn [do_finalize] in HR.
  exists r, s'. split; [exact HR|]. unfold hash_finalize. erewrite bind_done by exact HR.
  destruct Hr as [-> | ->]; cbn [Z.eqb Pos.eqb]; [rewrite more_none; reflexivity|rewrite fail_eq, more_one; reflexivity].
Qed.
Lemma initialize_names : forall E a v e s,
  exists r v' s', context_initialize E a v e s = Done (r, v') s' /\ hash_initialize E a v e s = Done (r, v') (more_errors e r E_RUNTIME_INITIALIZE_FAILED s').
Proof.
  intros E a v e s.
  destruct (initialize_decides E false a v e s) as (r & v' & s' & HR & Hr & _). cbn [do_initialize] in HR.
  exists r, v', s'. split; [exact HR|]. unfold hash_initialize. erewrite bind_done by exact HR. cbn [fst snd].
  destruct Hr as [-> | ->]; cbn [Z.eqb Pos.eqb]; [rewrite more_none; reflexivity|]. erewrite bind_done by (rewrite fail_eq; reflexivity). rewrite more_one. reflexivity.
Qed.
Lemma free_names : forall a v e s, (forall q, v = Some (Some q) -> heap_ctx s a q) ->
  exists r v' s', context_free a v e s = Done (r, v') s' /\ hash_free a v e s = Done (r, v') (more_errors e r E_RUNTIME_FINALIZE_FAILED s').
Proof.
  intros a v e s HV.
  destruct (free_decides false a v e s HV) as (r & v' & s' & HR & Hr & _). cbn [do_free] in HR.
  exists r, v', s'. split; [exact HR|]. unfold hash_free. erewrite bind_done by exact HR. cbn [fst snd].
  destruct Hr as [-> | ->]; cbn [Z.eqb Pos.eqb]; [rewrite more_none; reflexivity|]. erewrite bind_done by (rewrite fail_eq; reflexivity). rewrite more_one. reflexivity.
Qed.

(* -------------------------------------------------------------------- C28 *)

Lemma lib_key_zeros : forall a k z, (length k + z <= N.to_nat (block_size a))%nat ->
  hmac_key (lib_hash a) (N.to_nat (block_size a)) (k ++ repeat 0 z) = hmac_key (lib_hash a) (N.to_nat (block_size a)) k.
Proof.
  intros a k z H. unfold hmac_key. rewrite app_length, repeat_length.
  destruct (Nat.ltb_spec (N.to_nat (block_size a)) (length k + z)); [lia|].
  destruct (Nat.ltb_spec (N.to_nat (block_size a)) (length k)); [lia|].
  rewrite app_length, repeat_length, <- app_assoc. f_equal. rewrite <- repeat_app. f_equal. lia.
Qed.
Lemma lib_key_long : forall a k, (N.to_nat (block_size a) < length k)%nat ->
  hmac_key (lib_hash a) (N.to_nat (block_size a)) (lib_hash a k) = hmac_key (lib_hash a) (N.to_nat (block_size a)) k.
Proof.
  intros a k H. unfold hmac_key. rewrite lib_hash_length.
  assert (D : (N.to_nat (digest_size a) <= N.to_nat (block_size a))%nat) by (destruct a; cbn; lia).
  destruct (Nat.ltb_spec (N.to_nat (block_size a)) (N.to_nat (digest_size a))); [lia|].
  destruct (Nat.ltb_spec (N.to_nat (block_size a)) (length k)); [|lia]. rewrite lib_hash_length. reflexivity.
Qed.

Lemma hmac_result : forall E a kp key_size bp size hp hmac_size e s s',
  good_state s -> arg s (Some kp) key_size -> arg s (Some bp) size -> arg s (Some hp) hmac_size ->
  calculate_hmac E a (Some kp) key_size (Some bp) size (Some hp) hmac_size e s = Done 1%Z s' ->
  bytes_at s' hp (digest_size a) = lib_hmac a (bytes_at s kp key_size) (bytes_at s bp size).
Proof.
  intros E a kp key_size bp size hp hmac_size e s s' G HK HB HH HR.
  destruct (hmac_lib a E (Some kp) key_size (Some bp) size (Some hp) hmac_size e s G HK HB HH) as (r2 & s2 & HR2 & HC).
  rewrite HR in HR2. injection HR2 as <- <-. destruct HC as [(_ & _ & _ & k & b & h & Hk & Hb & Hh & HD)|(H1 & _)]; [|discriminate].
  congruence.
Qed.
Lemma calc_result : forall E a bp size hp hash_size e s s',
  good_state s -> arg s (Some bp) size -> arg s (Some hp) hash_size ->
  calculate E a (Some bp) size (Some hp) hash_size e s = Done 1%Z s' ->
  bytes_at s' hp (digest_size a) = lib_hash a (bytes_at s bp size).
Proof.
  intros E a bp size hp hash_size e s s' G HB HH HR.
  destruct (calc_lib a E (Some bp) size (Some hp) hash_size e s G HB HH) as (r2 & s2 & HR2 & HC).
  rewrite HR in HR2. injection HR2 as <- <-. destruct HC as [(_ & _ & _ & b & h & Hb & Hh & HD)|(H1 & _)]; [|discriminate].
  congruence.
Qed.

Lemma frames_zero : forall a s s' fs, a <> SHA1 -> resid s' = resid s ++ fs -> Forall (frame_clean a) fs -> Forall frame_zero (new_frames s s').
Proof. intros a s s' fs Ha HR HF. rewrite (new_frames_app _ _ _ HR). eapply Forall_impl; [|exact HF]. intros f. now apply clean_zero. Qed.
Lemma frames_sha1 : forall s s' fs, resid s' = resid s ++ fs -> Forall (frame_clean SHA1) fs ->
  Forall (fun f => Forall (eq 0) (f_hash_values f) /\ Forall (eq 0) (firstn 16 (f_values f))) (new_frames s s').
Proof. intros s s' fs HR HF. rewrite (new_frames_app _ _ _ HR). eapply Forall_impl; [|exact HF]. intros f. now apply clean_sha1. Qed.

(* -------------------------------------------------------------- C07 corollaries *)

Lemma pieces_one_shot : forall E E' a oi of ei ef xs hp hash_size s bp size hp' hash_size' e s2 r s2',
  good_state s -> Forall (fun x => arg s (Some (pc_ptr x)) (pc_size x) /\ pc_size x <= ssize_max E) xs ->
  arg s (Some hp) hash_size -> digest_size a <= hash_size <= ssize_max E -> alloc_ok E (tries s) = true ->
  good_state s2 -> arg s2 (Some bp) size -> arg s2 (Some hp') hash_size' ->
  calculate E' a (Some bp) size (Some hp') hash_size' e s2 = Done r s2' -> r = 1%Z ->
  bytes_at s2 bp size = concat (map (piece_bytes s) xs) ->
  exists s' o, run E (whole_message oi of ei ef xs hp hash_size) [(a, None)] s = Done o s' /\
    bytes_at s' hp (digest_size a) = bytes_at s2' hp' (digest_size a).
Proof.
  intros E E' a oi of ei ef xs hp hash_size s bp size hp' hash_size' e s2 r s2' G HX HH HS HA G2 HB2 HH2 HR -> HM.
  destruct (pieces_lib E a oi of ei ef xs hp hash_size s G HX HH HS HA) as (s' & q & HR' & HD & _).
  exists s'. eexists. split; [exact HR'|]. rewrite HD, <- HM. symmetry. eapply calc_result; [exact G2|exact HB2|exact HH2|exact HR].
Qed.

Lemma pieces_pieces : forall E E' a oi of ei ef xs hp hash_size s oi' of' ei' ef' xs' hp' hash_size' s2,
  good_state s -> Forall (fun x => arg s (Some (pc_ptr x)) (pc_size x) /\ pc_size x <= ssize_max E) xs ->
  arg s (Some hp) hash_size -> digest_size a <= hash_size <= ssize_max E -> alloc_ok E (tries s) = true ->
  good_state s2 -> Forall (fun x => arg s2 (Some (pc_ptr x)) (pc_size x) /\ pc_size x <= ssize_max E') xs' ->
  arg s2 (Some hp') hash_size' -> digest_size a <= hash_size' <= ssize_max E' -> alloc_ok E' (tries s2) = true ->
  concat (map (piece_bytes s) xs) = concat (map (piece_bytes s2) xs') ->
  exists o s' o2 s2', run E (whole_message oi of ei ef xs hp hash_size) [(a, None)] s = Done o s' /\
    run E' (whole_message oi' of' ei' ef' xs' hp' hash_size') [(a, None)] s2 = Done o2 s2' /\
    bytes_at s' hp (digest_size a) = bytes_at s2' hp' (digest_size a).
Proof.
  intros E E' a oi of ei ef xs hp hash_size s oi' of' ei' ef' xs' hp' hash_size' s2 G HX HH HS HA G2 HX2 HH2 HS2 HA2 HM.
  destruct (pieces_lib E a oi of ei ef xs hp hash_size s G HX HH HS HA) as (s' & q & HR & HD & _).
  destruct (pieces_lib E' a oi' of' ei' ef' xs' hp' hash_size' s2 G2 HX2 HH2 HS2 HA2) as (s2' & q2 & HR2 & HD2 & _).
  do 4 eexists. split; [exact HR|]. split; [exact HR2|]. rewrite HD, HD2, HM. reflexivity.
Qed.

(* ------------------------------------------------------------------------- C24 *)

Lemma digests_other : forall i o os, mine i o = false -> digests i (o :: os) = digests i os.
Proof. intros i o os H. destruct o; cbn [mine] in H; cbn [digests]; rewrite ?H; reflexivity. Qed.

Lemma accepts_det : forall f g os1 os2 i x, accepts f g x i os1 -> accepts f g x i os2 ->
  map ask (filter (mine i) os1) = map ask (filter (mine i) os2) -> digests i os1 = digests i os2.
Proof.
  intros f g os1. induction os1 as [|o1 os1 IH]; intros os2 i x A1 A2 HM.
  - cbn [filter map] in HM. symmetry in HM. apply map_eq_nil in HM. clear A2. induction os2 as [|o2 os2 IH2]; [reflexivity|].
    cbn [filter] in HM. destruct (mine i o2) eqn:Em; [discriminate|]. rewrite digests_other by exact Em. now apply IH2.
  - destruct (mine i o1) eqn:Em1.
    + cbn [filter map] in HM. rewrite Em1 in HM. cbn [map] in HM.
      induction os2 as [|o2 os2 IH2]; [discriminate|]. destruct (mine i o2) eqn:Em2.
      2: { cbn [filter] in HM. rewrite Em2 in HM. rewrite (digests_other i o2) by exact Em2. apply IH2; [|exact HM].
           revert A2. clear -Em2. destruct o2; cbn [mine] in Em2; cbn [accepts]; rewrite ?Em2; auto. }
      clear IH2. cbn [filter] in HM. rewrite Em2 in HM. cbn [map] in HM. injection HM as HA HM.
      destruct o1; cbn [mine] in Em1; try discriminate; destruct o2; cbn [mine] in Em2; try discriminate; cbn [ask] in HA; try discriminate;
        cbn [accepts] in A1, A2; rewrite Em1 in A1; rewrite Em2 in A2; injection HA; intros; subst; cbn [digests]; rewrite ?Em1, ?Em2.
      * destruct x.
        -- destruct A1, A2. eapply IH; eassumption.
        -- destruct A1 as [[R1 A1]|[R1 A1]], A2 as [[R2 A2]|[R2 A2]]; try congruence; eapply IH; eassumption.
      * destruct A1, A2. eapply IH; eassumption.
      * destruct x as [[b m]|].
        -- destruct A1 as [[R1 A1]|[R1 A1]], A2 as [[R2 A2]|[R2 A2]]; try congruence; eapply IH; eassumption.
        -- destruct A1, A2. eapply IH; eassumption.
      * destruct x as [[b m]|].
        -- destruct A1 as [(R1 & H1 & A1)|[R1 A1]], A2 as [(R2 & H2 & A2)|[R2 A2]]; try congruence.
           ++ rewrite R1. cbn. f_equal; [congruence|]. eapply IH; eassumption.
           ++ rewrite R1. cbn. eapply IH; eassumption.
        -- destruct A1 as [R1 A1], A2 as [R2 A2]. rewrite R1. cbn. eapply IH; eassumption.
    + rewrite (digests_other i o1) by exact Em1. cbn [filter] in HM. rewrite Em1 in HM.
      eapply IH; [|exact A2|exact HM]. revert A1. clear -Em1. destruct o1; cbn [mine] in Em1; cbn [accepts]; rewrite ?Em1; auto.
Qed.

Lemma programs_agree : forall E1 s1 vs1 h1 os1 vs1' s1' E2 s2 vs2 h2 os2 vs2' s2' i a,
  good_state s1 -> Forall (fun v => snd v = None) vs1 -> Forall (valid_call s1 vs1) h1 -> run E1 h1 vs1 s1 = Done (os1, vs1') s1' ->
  good_state s2 -> Forall (fun v => snd v = None) vs2 -> Forall (valid_call s2 vs2) h2 -> run E2 h2 vs2 s2 = Done (os2, vs2') s2' ->
  nth_error vs1 i = Some (a, None) -> nth_error vs2 i = Some (a, None) ->
  map ask (filter (mine i) os1) = map ask (filter (mine i) os2) -> digests i os1 = digests i os2.
Proof.
  intros E1 s1 vs1 h1 os1 vs1' s1' E2 s2 vs2 h2 os2 vs2' s2' i a G1 N1 V1 R1 G2 N2 V2 R2 H1 H2 HM.
  destruct (any_program E1 s1 vs1 h1 G1 N1 V1) as (o1 & v1 & t1 & R1' & _ & _ & _ & A1 & _).
  destruct (any_program E2 s2 vs2 h2 G2 N2 V2) as (o2 & v2 & t2 & R2' & _ & _ & _ & A2 & _).
  rewrite R1 in R1'. injection R1' as <- <- <-. rewrite R2 in R2'. injection R2' as <- <- <-.
  eapply accepts_det; [eapply A1; exact H1|eapply A2; exact H2|exact HM].
Qed.

(* ------------------------------------------------------------------------- C28 *)

Lemma hmac_padded_key : forall E a kp key_size bp size hp hmac_size e s s1 E2 kp2 key_size2 bp2 size2 hp2 hmac_size2 e2 s2 s2' z,
  good_state s -> arg s (Some kp) key_size -> arg s (Some bp) size -> arg s (Some hp) hmac_size ->
  good_state s2 -> arg s2 (Some kp2) key_size2 -> arg s2 (Some bp2) size2 -> arg s2 (Some hp2) hmac_size2 ->
  calculate_hmac E a (Some kp) key_size (Some bp) size (Some hp) hmac_size e s = Done 1%Z s1 ->
  calculate_hmac E2 a (Some kp2) key_size2 (Some bp2) size2 (Some hp2) hmac_size2 e2 s2 = Done 1%Z s2' ->
  key_size2 <= block_size a -> bytes_at s2 kp2 key_size2 = bytes_at s kp key_size ++ repeat 0 z ->
  bytes_at s2 bp2 size2 = bytes_at s bp size ->
  bytes_at s1 hp (digest_size a) = bytes_at s2' hp2 (digest_size a).
Proof.
  intros E a kp key_size bp size hp hmac_size e s s1 E2 kp2 key_size2 bp2 size2 hp2 hmac_size2 e2 s2 s2' z
    G HK HB HH G2 HK2 HB2 HH2 HR HR2 HS Hkey Hmsg.
  rewrite (hmac_result _ _ _ _ _ _ _ _ _ _ _ G HK HB HH HR), (hmac_result _ _ _ _ _ _ _ _ _ _ _ G2 HK2 HB2 HH2 HR2).
  rewrite Hmsg. unfold lib_hmac, hmac. rewrite Hkey, lib_key_zeros; [reflexivity|].
  pose proof (bytes_at_length s2 kp2 key_size2 HK2) as L. rewrite Hkey, app_length, repeat_length in L. lia.
Qed.

Lemma hmac_long_key : forall E a kp key_size bp size hp hmac_size e s s1 E2 kp2 bp2 size2 hp2 hmac_size2 e2 s2 s2',
  good_state s -> arg s (Some kp) key_size -> arg s (Some bp) size -> arg s (Some hp) hmac_size ->
  good_state s2 -> arg s2 (Some kp2) (digest_size a) -> arg s2 (Some bp2) size2 -> arg s2 (Some hp2) hmac_size2 ->
  calculate_hmac E a (Some kp) key_size (Some bp) size (Some hp) hmac_size e s = Done 1%Z s1 ->
  calculate_hmac E2 a (Some kp2) (digest_size a) (Some bp2) size2 (Some hp2) hmac_size2 e2 s2 = Done 1%Z s2' ->
  block_size a < key_size -> bytes_at s2 kp2 (digest_size a) = lib_hash a (bytes_at s kp key_size) ->
  bytes_at s2 bp2 size2 = bytes_at s bp size ->
  bytes_at s1 hp (digest_size a) = bytes_at s2' hp2 (digest_size a).
Proof.
  intros E a kp key_size bp size hp hmac_size e s s1 E2 kp2 bp2 size2 hp2 hmac_size2 e2 s2 s2'
    G HK HB HH G2 HK2 HB2 HH2 HR HR2 HS Hkey Hmsg.
  rewrite (hmac_result _ _ _ _ _ _ _ _ _ _ _ G HK HB HH HR), (hmac_result _ _ _ _ _ _ _ _ _ _ _ G2 HK2 HB2 HH2 HR2).
  rewrite Hmsg. unfold lib_hmac, hmac. rewrite Hkey, lib_key_long; [reflexivity|].
  rewrite (bytes_at_length s kp key_size HK). lia.
Qed.

(* ------------------------------------------------------------------------- C05 *)

Lemma le_bytes_value : forall n v w, v < 256 ^ N.of_nat n -> w < 256 ^ N.of_nat n -> le_bytes n v = le_bytes n w -> v = w.
Proof.
  induction n as [|n IH]; intros v w Hv Hw H.
  - cbn in Hv, Hw. lia.
  - cbn [le_bytes] in H. injection H as H0 H1. rewrite Nat2N.inj_succ, N.pow_succ_r' in Hv, Hw.
    apply IH in H1; [|apply N.div_lt_upper_bound; lia|apply N.div_lt_upper_bound; lia].
    rewrite (N.div_mod v 256), (N.div_mod w 256) by discriminate. now rewrite H0, H1.
Qed.

Lemma sha512_padding_differs : forall m, 2 ^ 61 <= N.of_nat (length m) < 2 ^ 125 ->
  sha512_len64_padded m <> sha512_padded m.
Proof.
  intros m H X. unfold sha512_len64_padded, sha512_padded, padded in X. apply app_inv_head in X.
  apply app_inv_head in X. apply app_inv_head in X. unfold be_bytes in X. apply (f_equal (@rev N)) in X. rewrite !rev_involutive in X.
  set (len := N.of_nat (length m)) in *. pose proof (N.mod_lt (8 * len) (2 ^ 64) ltac:(discriminate)) as L.
  set (x := (8 * len) mod 2 ^ 64) in *.
  change (2 ^ 64) with 0x10000000000000000 in L. change (2 ^ 61) with 0x2000000000000000 in H.
  change (2 ^ 125) with 0x20000000000000000000000000000000 in H.
  apply le_bytes_value in X; change (256 ^ N.of_nat 16) with 0x100000000000000000000000000000000; lia.
Qed.

(* ------------------------------------------------------------------------- C14 *)

Lemma calculate_overlap : forall a E bp size hp hash_size e s,
  good_state s -> arg s (Some bp) size -> arg s (Some hp) hash_size ->
  fst hp = fst bp -> snd hp < snd bp + size -> snd bp < snd hp + digest_size a ->
  hash_args E a (Some bp) size (Some hp) hash_size -> (forall i, alloc_ok E i = true) ->
  exists s', calculate E a (Some bp) size (Some hp) hash_size e s = Done 1%Z s' /\
  bytes_at s' hp (digest_size a) = lib_hash a (bytes_at s bp size).
Proof.
  intros a E bp size hp hash_size e s G HB HH _ _ _ HA HO.
  destruct (calc_lib a E (Some bp) size (Some hp) hash_size e s G HB HH) as (r & s' & HR & [(-> & _ & _ & b & h & Hb & Hh & HD)|(_ & [(i & _ & X)|X])]).
  - exists s'. split; [exact HR|]. congruence.
  - rewrite HO in X. discriminate.
  - contradiction.
Qed.
Lemma hmac_overlap : forall a E kp key_size bp size hp hmac_size e s,
  good_state s -> arg s (Some kp) key_size -> arg s (Some bp) size -> arg s (Some hp) hmac_size ->
  (fst hp = fst bp /\ snd hp < snd bp + size /\ snd bp < snd hp + digest_size a) \/
  (fst hp = fst kp /\ snd hp < snd kp + key_size /\ snd kp < snd hp + digest_size a) ->
  hmac_args E a (Some kp) key_size (Some bp) size (Some hp) hmac_size -> (forall i, alloc_ok E i = true) ->
  exists s', calculate_hmac E a (Some kp) key_size (Some bp) size (Some hp) hmac_size e s = Done 1%Z s' /\
  bytes_at s' hp (digest_size a) = lib_hmac a (bytes_at s kp key_size) (bytes_at s bp size).
Proof.
  intros a E kp key_size bp size hp hmac_size e s G HK HB HH _ HA HO.
  destruct (hmac_lib a E (Some kp) key_size (Some bp) size (Some hp) hmac_size e s G HK HB HH) as (r & s' & HR & [(-> & _ & _ & k & b & h & Hk & Hb & Hh & HD)|(_ & [(i & _ & X)|X])]).
  - exists s'. split; [exact HR|]. congruence.
  - rewrite HO in X. discriminate.
  - contradiction.
Qed.

(* ------------------------------------------------- reachable states are good *)

Lemma reachable : forall E s vs h os vs' s', good_state s -> Forall (fun v => snd v = None) vs -> Forall (valid_call s vs) h ->
  run E h vs s = Done (os, vs') s' ->
  good_state s' /\ (forall q n, arg s q n -> arg s' q n) /\
  (forall i a p, nth_error vs' i = Some (a, p) -> ctx_arg s' a p /\ forall q, p = Some q -> heap_ctx s' a q).
Proof.
  intros E s vs h os vs' s' G HN HV HR.
  destruct (any_program E s vs h G HN HV) as (os2 & vs2 & s2 & HR2 & _ & _ & _ & _ & HG & HK & HC & _).
  rewrite HR in HR2. injection HR2 as <- <- <-. split; [exact HG|]. split.
  - intros [q|] n; [|trivial]. intros (l & Hl & HS). unfold get_obj in Hl. destruct (nth_error (mem s) (fst q)) as [c|] eqn:Hc; [|discriminate].
    destruct (live c) eqn:El; [|discriminate]. injection Hl as Hl. destruct (HK _ _ Hc) as (c' & Hc' & K1 & K2 & K3). rewrite Hl in K3.
    destruct K3 as (l' & Hl' & HL). exists l'. split; [|lia]. unfold get_obj. rewrite Hc', K1, El. now rewrite Hl'.
  - intros i a [p|] Hi.
    + destruct (HC i a p Hi) as [_ HH]. split.
      * destruct HH as (c & Hc). exists c. unfold get_obj. now rewrite Hc.
      * intros q [= <-]. exact HH.
    + split; [exact Logic.I|discriminate].
Qed.

(* ------------------------------------------------------------------------- C20 *)

Lemma update_frames_zero : forall E old a p b n e s r s', a <> SHA1 -> good_state s -> ctx_arg s a p -> arg s b n ->
  do_update E old a p b n e s = Done r s' -> Forall frame_zero (new_frames s s').
Proof. intros. edestruct update_scratch as (fs & HF1 & HF2); try eassumption. eapply frames_zero; eassumption. Qed.
Lemma finalize_frames_zero : forall E old a p h n e s r s', a <> SHA1 -> good_state s -> ctx_arg s a p -> arg s h n ->
  do_finalize E old a p h n e s = Done r s' -> Forall frame_zero (new_frames s s').
Proof. intros. edestruct finalize_scratch as (fs & HF1 & HF2); try eassumption. eapply frames_zero; eassumption. Qed.
Lemma calculate_frames_zero : forall E a b n h hn e s r s', a <> SHA1 -> good_state s -> arg s b n -> arg s h hn ->
  calculate E a b n h hn e s = Done r s' -> Forall frame_zero (new_frames s s').
Proof. intros. edestruct calculate_scratch as (fs & HF1 & HF2); [| | |eassumption|]; try eassumption. eapply frames_zero; eassumption. Qed.
Lemma hmac_frames_zero : forall E a k kn b n h hn e s r s', a <> SHA1 -> good_state s -> arg s k kn -> arg s b n -> arg s h hn ->
  calculate_hmac E a k kn b n h hn e s = Done r s' -> Forall frame_zero (new_frames s s').
Proof. intros. edestruct hmac_scratch as (fs & HF1 & HF2); [| | | |eassumption|]; try eassumption. eapply frames_zero; eassumption. Qed.
Lemma calculate_frames_sha1 : forall E b n h hn e s r s', good_state s -> arg s b n -> arg s h hn ->
  calculate E SHA1 b n h hn e s = Done r s' ->
  Forall (fun f => Forall (eq 0) (f_hash_values f) /\ Forall (eq 0) (firstn 16 (f_values f))) (new_frames s s').
Proof. intros. edestruct calculate_scratch as (fs & HF1 & HF2); [| | |eassumption|]; try eassumption. eapply frames_sha1; eassumption. Qed.
