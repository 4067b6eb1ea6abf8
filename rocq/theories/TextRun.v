(* The functions of the five libhmac_X_context.c and libhmac_X.c as run_text of TextAll.v runs them. *)
From Coq Require Import Arith NArith ZArith String List Lia Bool.
From Verif Require Import Words Spec Tables Transform Machine Vocab Context Hash MachineFacts ContextFacts DigestFacts ReprFacts HashFacts LibProofs
  LibTheorems
  Demo CText TextAll TextFacts TextContext TextUpdate TextTransform TextFinalize TextHash TextHmac.
Import ListNotations.
Open Scope N_scope.

Lemma run_initialize : forall E fuel a c e s,
  run_text E fuel a "context_initialize" [v_place a c; v_error e] s =
  (r <- context_initialize E a c e ;; ret (VS R32 (fst r), [option_map (fun _ => v_ctx a (snd r)) c; None])) s.
Proof. intros. unfold run_text. rewrite text_initialize. unfold bind. destruct (context_initialize E a c e s); [destruct c|]; reflexivity. Qed.

Lemma run_free : forall E fuel a c e s,
  run_text E fuel a "context_free" [v_place a c; v_error e] s =
  (r <- context_free a c e ;; ret (VS R32 (fst r), [option_map (fun _ => v_ctx a (snd r)) c; None])) s.
Proof. intros. unfold run_text. rewrite text_free. unfold bind. destruct (context_free a c e s); [destruct c|]; reflexivity. Qed.

Lemma run_update : forall E fuel a p b n e s,
  good_state s -> ctx_arg s a p -> arg s b n -> n < size_mod E -> (N.to_nat n + 400 <= fuel)%nat ->
  run_text E fuel a "context_update" [v_ctx a p; v_bytes b; VU RSz n; v_error e] s =
  (r <- context_update E a p b n e ;; ret (VS R32 r, [None; None; None; None])) s.
Proof.
  intros E fuel a p b n e s G HP HB Hn Hf. unfold run_text. apply text_update.
  - apply text_transform.
  - now apply good_wf.
  - unfold enough. lia.
  - assumption.
  - unfold enough. lia.
  - intros q ->. exact HP.
  - intros q -> _. exact HB.
Qed.

Lemma run_finalize : forall E fuel a p h n e s,
  good_state s -> ctx_arg s a p -> arg s h n -> n < size_mod E -> (400 <= fuel)%nat ->
  run_text E fuel a "context_finalize" [v_ctx a p; v_bytes h; VU RSz n; v_error e] s =
  (r <- context_finalize E a p h n e ;; ret (VS R32 r, [None; None; None; None])) s.
Proof.
  intros E fuel a p h n e s G HP HB Hn Hf. unfold run_text. apply text_finalize.
  - apply text_transform.
  - now apply good_wf.
  - unfold enough. lia.
  - assumption.
  - intros q ->. exact HP.
  - intros q -> H _. destruct HB as (l & Hl & L). exists l. split; [exact Hl|]. lia.
Qed.

(* ----------------------------------------------------- libhmac_X.c *)

Lemma run_hash_initialize : forall E fuel a c e s,
  run_text E fuel a "initialize" [v_place a c; v_error e] s =
  (r <- hash_initialize E a c e ;; ret (VS R32 (fst r), [option_map (fun _ => v_ctx a (snd r)) c; None])) s.
Proof. intros. unfold run_text. rewrite text_hash_initialize. unfold bind. destruct (hash_initialize E a c e s); [destruct c|]; reflexivity. Qed.

Lemma run_hash_free : forall E fuel a c e s,
  run_text E fuel a "free" [v_place a c; v_error e] s =
  (r <- hash_free a c e ;; ret (VS R32 (fst r), [option_map (fun _ => v_ctx a (snd r)) c; None])) s.
Proof. intros. unfold run_text. rewrite text_hash_free. unfold bind. destruct (hash_free a c e s); [destruct c|]; reflexivity. Qed.

Lemma run_hash_update : forall E fuel a p b n e s,
  good_state s -> ctx_arg s a p -> arg s b n -> n < size_mod E -> (N.to_nat n + 400 <= fuel)%nat ->
  run_text E fuel a "update" [v_ctx a p; v_bytes b; VU RSz n; v_error e] s =
  (r <- hash_update E a p b n e ;; ret (VS R32 r, [None; None; None; None])) s.
Proof.
  intros E fuel a p b n e s G HP HB Hn Hf. unfold run_text. apply text_hash_update, text_update.
  - apply text_transform.
  - now apply good_wf.
  - unfold enough. lia.
  - assumption.
  - unfold enough. lia.
  - intros q ->. exact HP.
  - intros q -> _. exact HB.
Qed.

Lemma run_hash_finalize : forall E fuel a p h n e s,
  good_state s -> ctx_arg s a p -> arg s h n -> n < size_mod E -> (400 <= fuel)%nat ->
  run_text E fuel a "finalize" [v_ctx a p; v_bytes h; VU RSz n; v_error e] s =
  (r <- hash_finalize E a p h n e ;; ret (VS R32 r, [None; None; None; None])) s.
Proof.
  intros E fuel a p h n e s G HP HB Hn Hf. unfold run_text. apply text_hash_finalize, text_finalize.
  - apply text_transform.
  - now apply good_wf.
  - unfold enough. lia.
  - assumption.
  - intros q ->. exact HP.
  - intros q -> H _. destruct HB as (l & Hl & L). exists l. split; [exact Hl|]. lia.
Qed.

Lemma run_calculate : forall E fuel a b n h hn e s,
  good_state s -> arg s b n -> arg s h hn -> n < size_mod E -> hn < size_mod E -> (N.to_nat n + 400 <= fuel)%nat ->
  run_text E fuel a "calculate" [v_bytes b; VU RSz n; v_bytes h; VU RSz hn; v_error e] s =
  (r <- calculate E a b n h hn e ;; ret (VS R32 r, [None; None; None; None; None])) s.
Proof.
  intros E fuel a b n h hn e s G HB HH Hn Hhn Hf. unfold run_text. apply text_calculate.
  - apply text_transform.
  - now apply good_wf.
  - unfold enough. lia.
  - unfold enough. lia.
  - assumption.
  - assumption.
  - intros q -> _. exact HB.
  - intros q -> H _. destruct HH as (l & Hl & L). exists l. split; [exact Hl|]. lia.
Qed.

Lemma run_calculate_hmac : forall E fuel a k kn b n h hn e s,
  good_state s -> arg s k kn -> arg s b n -> arg s h hn -> kn < size_mod E -> n < size_mod E -> hn < size_mod E ->
  (N.to_nat kn + 400 <= fuel)%nat -> (N.to_nat n + 400 <= fuel)%nat ->
  run_text E fuel a "calculate_hmac" [v_bytes k; VU RSz kn; v_bytes b; VU RSz n; v_bytes h; VU RSz hn; v_error e] s =
  (r <- calculate_hmac E a k kn b n h hn e ;; ret (VS R32 r, [None; None; None; None; None; None; None])) s.
Proof.
  intros E fuel a k kn b n h hn e s G HK HB HH Hkn Hn Hhn Hf1 Hf2. unfold run_text.
  apply text_calculate_hmac; try assumption; try (unfold enough; lia).
  - apply text_transform.
  - now apply good_wf.
Qed.

(* ----------------------------------------------------- what running the text computes *)

Lemma text_digest : forall a E fuel buffer size hash hash_size e s,
  good_state s -> arg s buffer size -> arg s hash hash_size -> size < size_mod E -> hash_size < size_mod E ->
  (N.to_nat size + 400 <= fuel)%nat -> (a = SHA512 -> plat64 E = false \/ size < 2 ^ 61) ->
  exists r s', run_text E fuel a "calculate" [v_bytes buffer; VU RSz size; v_bytes hash; VU RSz hash_size; v_error e] s =
               Done (VS R32 r, [None; None; None; None; None]) s' /\
  ((r = 1%Z /\ hash_args E a buffer size hash hash_size /\ all_allocs_ok E s s' /\
    exists bp hp, buffer = Some bp /\ hash = Some hp /\ bytes_at s' hp (digest_size a) = spec_hash a (bytes_at s bp size))
   \/ (r = (-1)%Z /\ (some_alloc_failed E s s' \/ ~ hash_args E a buffer size hash hash_size))).
Proof.
  intros a E fuel buffer size hash hash_size e s G HB HH Hn Hhn Hf Hd.
  destruct (calc_spec a E buffer size hash hash_size e s G HB HH Hd) as (r & s' & Q & H).
  exists r, s'. rewrite run_calculate by assumption. unfold bind. rewrite Q. split; [reflexivity|exact H].
Qed.

Lemma text_hmac : forall a E fuel key key_size buffer size hmac hmac_size e s,
  good_state s -> arg s key key_size -> arg s buffer size -> arg s hmac hmac_size ->
  key_size < size_mod E -> size < size_mod E -> hmac_size < size_mod E ->
  (N.to_nat key_size + 400 <= fuel)%nat -> (N.to_nat size + 400 <= fuel)%nat ->
  (a = SHA512 -> plat64 E = false \/ (key_size < 2 ^ 61 /\ 128 + size < 2 ^ 61)) ->
  exists r s', run_text E fuel a "calculate_hmac"
                 [v_bytes key; VU RSz key_size; v_bytes buffer; VU RSz size; v_bytes hmac; VU RSz hmac_size; v_error e] s =
               Done (VS R32 r, [None; None; None; None; None; None; None]) s' /\
  ((r = 1%Z /\ hmac_args E a key key_size buffer size hmac hmac_size /\ all_allocs_ok E s s' /\
    exists kp bp hp, key = Some kp /\ buffer = Some bp /\ hmac = Some hp /\
    bytes_at s' hp (digest_size a) = spec_hmac a (bytes_at s kp key_size) (bytes_at s bp size))
   \/ (r = (-1)%Z /\ (some_alloc_failed E s s' \/ ~ hmac_args E a key key_size buffer size hmac hmac_size))).
Proof.
  intros a E fuel key key_size buffer size hmac hmac_size e s G HK HB HH Hkn Hn Hhn Hf1 Hf2 Hd.
  destruct (hmac_spec a E key key_size buffer size hmac hmac_size e s G HK HB HH Hd) as (r & s' & Q & H).
  exists r, s'. rewrite run_calculate_hmac by assumption. unfold bind. rewrite Q. split; [reflexivity|exact H].
Qed.

(* ----------------------------------------------------- an example for PropText.v *)

Lemma text_case : let s := final (context_initialize (demo_env true true) SHA256 (Some None) true demo_state) in
  good_state s /\ ctx_arg s SHA256 (Some 7%nat) /\ arg s (Some (6%nat, 0)) 200 /\ arg s (Some (1%nat, 0)) 32 /\
  200 < size_mod (demo_env true true) /\ (N.to_nat 200 + 400 <= 600)%nat.
Proof.
  cbv zeta. rewrite initialize_eq. cbn [alloc_ok demo_env final]. repeat split.
  - apply good_wf. apply wf_cells. change (mem (tick _)) with (demo_mem ++ [mk_cell true Heap (OCtx SHA256 (init_ctx SHA256))])%list.
    apply Forall_app. split; [apply (proj1 (wf_cells demo_state)), good_wf, demo_good|].
    constructor; [intros _; apply init_wf|constructor].
  - exists (init_ctx SHA256). reflexivity.
  - eexists. split; [reflexivity|]. vm_compute. discriminate.
  - eexists. split; [reflexivity|]. vm_compute. discriminate.
  - vm_compute. lia.
Qed.
