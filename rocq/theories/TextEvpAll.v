(* The text of libhmac_X.c with calls that execute the text of libhmac_X_context.c in the builds with libcrypto. *)
From Coq Require Import Arith NArith ZArith List Bool String Lia.
From Verif Require Import Words Spec Machine MachineFacts Vocab Context ContextFacts Hash HashFacts LibProofs Evp EvpVocab EvpFacts CText TextFacts TextSteps
  TextAll TextContext TextHash TextHmac TextEvp EvpCalls EvpHash TextEvpHash TextEvpInit TextEvpFree TextEvpUpdate TextEvpFinalize TextEvpClient.
Import ListNotations.
Open Scope string_scope.
Open Scope list_scope.
Open Scope N_scope.

(* ------------------------------------------------------------- byte arrays hold bytes *)
Definition kept {A} (m : M A) : Prop := forall s r s', wf_state s -> m s = Done r s' -> wf_state s'.

Lemma kept_ret : forall A (x : A), kept (ret x).
Proof. intros A x s r s' W H. injection H as <- <-. exact W. Qed.
Lemma kept_bind : forall A B (m : M A) (k : A -> M B), kept m -> (forall x, kept (k x)) -> kept (bind m k).
Proof. intros A B m k Hm Hk s r s' W H. unfold bind in H. destruct (m s) as [x s1|] eqn:X; [|discriminate]. eapply Hk; [|exact H]. eapply Hm; eassumption. Qed.
Lemma kept_undef : forall A, kept (@undef A).
Proof. intros A s r s' W H. discriminate. Qed.
Lemma kept_error : forall e k, kept (error_set e k).
Proof. intros e k s r s' W H. injection H as <- <-. now apply (wf_same s). Qed.
Lemma kept_fail : forall e k, kept (fail e k).
Proof. intros e k. apply kept_bind; [apply kept_error|intros; apply kept_ret]. Qed.
Lemma kept_replace : forall s p c, wf_state s -> cell_ok c -> wf_state (set_mem (replace (mem s) p c) s).
Proof.
  intros s p c W Hc. apply wf_cells. cbn [set_mem mem]. apply wf_cells in W. revert p. induction (mem s) as [|x l IH]; intros [|p]; cbn [replace].
  1, 2: constructor.
  - inversion W; constructor; assumption.
  - inversion W; constructor; [assumption|]. now apply IH.
Qed.
Lemma kept_free : forall p, kept (mfree p).
Proof.
  intros p s r s' W H. unfold mfree in H. destruct (nth_error (mem s) p) as [[[|] [|] o]|]; try discriminate. injection H as <- <-.
  apply kept_replace; [exact W|]. intros X. discriminate.
Qed.
Lemma kept_put : forall p o s s', obj_ok o -> wf_state s -> put_obj p o s = Some s' -> wf_state s'.
Proof.
  intros p o s s' Ho W H. unfold put_obj in H. destruct (nth_error (mem s) p) as [c|]; [|discriminate]. destruct (live c); [|discriminate].
  injection H as <-. apply kept_replace; [exact W|]. intros _. exact Ho.
Qed.
Lemma kept_store : forall q c, Forall is_byte c -> kept (store_provider q c).
Proof.
  intros q c Hc s r s' W H. unfold store_provider in H. destruct (get_obj s q) as [[l| |]|]; try discriminate.
  destruct (put_obj q (OBytes c) s) as [s1|] eqn:X; [|discriminate]. injection H as <- <-. eapply kept_put; [|exact W|exact X]. exact Hc.
Qed.
Lemma kept_set : forall p q, kept (set_provider_context p q).
Proof.
  intros p q s r s' W H. unfold set_provider_context in H. destruct (get_obj s p) as [[| |l]|]; try discriminate.
  destruct (put_obj p (OPtr q) s) as [s1|] eqn:X; [|discriminate]. injection H as <- <-. eapply kept_put; [|exact W|exact X]. exact I.
Qed.
Lemma kept_load : forall q, kept (load_provider q).
Proof. intros q s r s' W H. unfold load_provider in H. destruct (get_obj s q) as [[l| |]|]; try discriminate. injection H as <- <-. exact W. Qed.
Lemma kept_context : forall v p, kept (provider_context v p).
Proof.
  intros [b| |] p; [apply kept_ret|apply kept_ret|]. intros s r s' W H. unfold provider_context in H.
  destruct (get_obj s p) as [[| |[q|]]|]; try discriminate. injection H as <- <-. exact W.
Qed.
Lemma kept_allocate : forall o E, obj_ok o -> kept (allocate o E).
Proof.
  intros o E Ho s r s' W H. unfold allocate in H. destruct (alloc_ok E (tries s)); injection H as <- <-.
  - apply wf_cells. cbn [mem]. apply Forall_app. split; [now apply wf_cells|]. constructor; [|constructor]. intros _. exact Ho.
  - now apply (wf_same s).
Qed.
Lemma kept_write : forall p d, Forall is_byte d -> kept (write p d).
Proof. intros p d Hd s [] s' W H. now apply (write_keeps _ _ _ _ W Hd) in H as (W1 & _). Qed.
Lemma kept_view : forall p, kept (view p).
Proof. intros p s r s' W H. now apply view_inv in H as (-> & _). Qed.
Lemma kept_lift : forall A (x : option A), kept (lift x).
Proof. intros A [x|]; [apply kept_ret|apply kept_undef]. Qed.
Lemma kept_ask : forall A (f : state -> A), kept (ask f).
Proof. intros A f s r s' W H. injection H as <- <-. exact W. Qed.
Lemma kept_ask_then : forall A B (f : state -> A) (k : A -> M B), (forall s, kept (k (f s))) -> kept (r <- ask f ;; k r).
Proof. intros A B f k Hk s r s' W H. unfold ask, bind in H. eapply Hk; eassumption. Qed.

Section Kept.
  Variables (E : env) (P : provider) (v : variant) (a : algid).
  Hypothesis H : gives_bytes P a.

  Lemma kept_provider_init : forall q, kept (provider_init P a q).
  Proof. intros q. apply kept_ask_then. intros s. apply kept_bind; [apply kept_store, H|intros; apply kept_ret]. Qed.

  Ltac kp := repeat first
    [ apply kept_ret | apply kept_fail | apply kept_error | apply kept_free | apply kept_set | apply kept_context | apply kept_load | apply kept_view
    | apply kept_lift | apply kept_provider_init | apply kept_allocate; exact I || constructor
    | apply kept_store, H | apply kept_write, H | apply kept_ask_then; intros | apply kept_bind; [|intros]
    | match goal with |- kept (if ?b then _ else _) => destruct b end
    | match goal with |- kept (match ?x with Some _ => _ | None => _ end) => destruct x end
    | match goal with |- kept (match ?x with Legacy _ => _ | Inside => _ | Outside => _ end) => destruct x end ].

  Lemma kept_initialize : forall c e, kept (evp_initialize E P v a c e).
  Proof. intros [[q|]|] e; cbn [evp_initialize]; destruct v; kp. Qed.
  Lemma kept_evp_free : forall c e, kept (evp_free P v a c e).
  Proof. intros [[q|]|] e; cbn [evp_free]; kp. Qed.
  Lemma kept_update : forall p b n e, kept (evp_update E P v a p b n e).
  Proof. intros [p|] [b|] n e; cbn [evp_update]; kp. Qed.
  Lemma kept_finalize : forall p h n e, kept (evp_finalize E P v a p h n e).
  Proof. intros [p|] [h|] n e; cbn [evp_finalize]; cbv zeta; kp. Qed.
End Kept.

(* ------------------------------------------------------------- the calls *)
Section All.
  Variables (E : env) (P : provider) (v : variant) (ex2 : bool) (fuel : nat) (a : algid).
  Notation call := (call_evp E P v ex2 fuel a).
  Notation F := (evp E P v a).

  Lemma call_initialize : forall c e s, call (name_of a "context_initialize") [v_place a c; v_error e] s =
    (r <- f_initialize F c e ;; ret (VS R32 (fst r), [left_at a c (snd r); None])) s.
  Proof. intros c e s. exact (evp_initialize_agrees E P v ex2 fuel a c e s). Qed.
  Lemma call_free : forall c e s, call (name_of a "context_free") [v_place a c; v_error e] s =
    (r <- f_free F c e ;; ret (VS R32 (fst r), [left_at a c (snd r); None])) s.
  Proof. intros c e s. exact (evp_free_agrees E P v ex2 fuel a c e s). Qed.

  Lemma call_evp_converted : forall f x y w w' z s def n1 n2 n3 n4,
    find_fun (evp_functions v ex2 a) f = Some def ->
    f_params def = [(n1, CPtr); (n2, CPtr); (n3, CInt false RSz); (n4, CPtr)] ->
    to_unsigned E RSz w = to_unsigned E RSz w' ->
    call f [x; y; w; z] s = call f [x; y; w'; z] s.
  Proof. intros f x y w w' z s def n1 n2 n3 n4 H1 H2 H3. unfold call_evp. rewrite H1, !run_fun_eq, H2. cbn [bind_params convert]. rewrite H3. reflexivity. Qed.

  Lemma call_update : (v = Legacy true -> plat64 E = true) -> forall p q w m e s, to_unsigned E RSz w = Some m ->
    call (name_of a "context_update") [v_ctx a p; v_bytes q; w; v_error e] s =
    (r <- f_update F p q m e ;; ret (VS R32 r, [None; None; None; None])) s.
  Proof.
    intros L p q w m e s Hw. refine (eq_trans _ (evp_update_agrees E P v ex2 fuel a p q m e s L)).
    change (run_evp E P v ex2 fuel a "context_update") with (call (name_of a "context_update")).
    assert (X : exists def n1 n2 n3 n4, find_fun (evp_functions v ex2 a) (name_of a "context_update") = Some def /\
      f_params def = [(n1, CPtr); (n2, CPtr); (n3, CInt false RSz); (n4, CPtr)]).
    { clear. destruct a, v as [[|]| |], ex2; do 5 eexists; split; reflexivity. }
    destruct X as (def & n1 & n2 & n3 & n4 & X1 & X2). eapply call_evp_converted; [exact X1|exact X2|exact Hw].
  Qed.
  Lemma call_finalize : forall p q w m e s, to_unsigned E RSz w = Some m ->
    call (name_of a "context_finalize") [v_ctx a p; v_bytes q; w; v_error e] s =
    (r <- f_finalize F p q m e ;; ret (VS R32 r, [None; None; None; None])) s.
  Proof.
    intros p q w m e s Hw. refine (eq_trans _ (evp_finalize_agrees E P v ex2 fuel a p q m e s)).
    change (run_evp E P v ex2 fuel a "context_finalize") with (call (name_of a "context_finalize")).
    assert (X : exists def n1 n2 n3 n4, find_fun (evp_functions v ex2 a) (name_of a "context_finalize") = Some def /\
      f_params def = [(n1, CPtr); (n2, CPtr); (n3, CInt false RSz); (n4, CPtr)]).
    { clear. destruct a, v as [[|]| |], ex2; do 5 eexists; split; reflexivity. }
    destruct X as (def & n1 & n2 & n3 & n4 & X1 & X2). eapply call_evp_converted; [exact X1|exact X2|exact Hw].
  Qed.
End All.

(* ------------------------------------------------------------- the functions of libhmac_X.c *)
Lemma free_none : forall P v a c e s r s', evp_free P v a (Some c) e s = Done r s' -> snd r = None.
Proof.
  intros P v a [p|] e s r s' H; cbn [evp_free] in H; [|now injection H as <- _].
  unfold bind in H. repeat match type of H with context [match ?x with Done _ _ => _ | Undef => _ end] => destruct x end; try discriminate.
  now injection H as <- _.
Qed.

Lemma hash_found : forall a u, let T := p_functions (text_of a u) in
  find_fun T (name_of a "initialize") = Some (initialize_def a u) /\ find_fun T (name_of a "free") = Some (free_def a u) /\
  find_fun T (name_of a "update") = Some (update_w_def a u) /\ find_fun T (name_of a "finalize") = Some (finalize_w_def a u) /\
  find_fun T (name_of a "calculate") = Some (calc_def a u) /\ find_fun T (name_of a "calculate_hmac") = Some (hmac_def a u).
Proof. intros [] []; repeat split; reflexivity. Qed.

Lemma evp_hash_initialize : forall E P v ex2 fuel a c e s,
  run_evp_hash E P v ex2 fuel a "initialize" [v_place a c; v_error e] s =
  (r <- hash_initialize_with (evp E P v a) c e ;; ret (VS R32 (fst r), [option_map (fun _ => v_ctx a (snd r)) c; None])) s.
Proof.
  intros. unfold run_evp_hash. rewrite (proj1 (hash_found a (unrolled E))).
  apply (initialize_text E fuel a (evp E P v a)). intros. apply call_initialize.
Qed.
Lemma evp_hash_free : forall E P v ex2 fuel a c e s,
  run_evp_hash E P v ex2 fuel a "free" [v_place a c; v_error e] s =
  (r <- hash_free_with (evp E P v a) c e ;; ret (VS R32 (fst r), [option_map (fun _ => v_ctx a (snd r)) c; None])) s.
Proof.
  intros. unfold run_evp_hash. rewrite (proj1 (proj2 (hash_found a (unrolled E)))).
  apply (free_text E fuel a (evp E P v a)). intros. apply call_free.
Qed.
Lemma evp_hash_update : forall E P v ex2 fuel a c b n e s, (v = Legacy true -> plat64 E = true) ->
  run_evp_hash E P v ex2 fuel a "update" [v_ctx a c; v_bytes b; VU RSz n; v_error e] s =
  (r <- hash_update_with (evp E P v a) c b n e ;; ret (VS R32 r, [None; None; None; None])) s.
Proof.
  intros. unfold run_evp_hash. rewrite (proj1 (proj2 (proj2 (hash_found a (unrolled E))))).
  apply (update_text E fuel a (evp E P v a)). intros. now apply call_update.
Qed.
Lemma evp_hash_finalize : forall E P v ex2 fuel a c h n e s,
  run_evp_hash E P v ex2 fuel a "finalize" [v_ctx a c; v_bytes h; VU RSz n; v_error e] s =
  (r <- hash_finalize_with (evp E P v a) c h n e ;; ret (VS R32 r, [None; None; None; None])) s.
Proof.
  intros. unfold run_evp_hash. rewrite (proj1 (proj2 (proj2 (proj2 (hash_found a (unrolled E)))))).
  apply (finalize_text E fuel a (evp E P v a)). intros. now apply call_finalize.
Qed.
Lemma evp_hash_calculate : forall E P v ex2 fuel a b n h hn e s, (v = Legacy true -> plat64 E = true) ->
  run_evp_hash E P v ex2 fuel a "calculate" [v_bytes b; VU RSz n; v_bytes h; VU RSz hn; v_error e] s =
  (r <- calculate_with (evp E P v a) a b n h hn e ;; ret (VS R32 r, [None; None; None; None; None])) s.
Proof.
  intros. unfold run_evp_hash. rewrite (proj1 (proj2 (proj2 (proj2 (proj2 (hash_found a (unrolled E))))))).
  apply (calculate_text E fuel a (evp E P v a)); intros; [apply call_initialize|apply call_free|now apply call_update|now apply call_finalize].
Qed.
Lemma evp_hash_hmac : forall E P v ex2 fuel a k kn b n h hn e s, (v = Legacy true -> plat64 E = true) -> gives_bytes P a ->
  good_state s -> (128 <= fuel)%nat ->
  run_evp_hash E P v ex2 fuel a "calculate_hmac" [v_bytes k; VU RSz kn; v_bytes b; VU RSz n; v_bytes h; VU RSz hn; v_error e] s =
  (r <- calculate_hmac_with E (evp E P v a) a k kn b n h hn e ;; ret (VS R32 r, [None; None; None; None; None; None; None])) s.
Proof.
  intros E P v ex2 fuel a k kn b n h hn e s L G W Fu. apply good_wf in W. unfold run_evp_hash. rewrite (proj2 (proj2 (proj2 (proj2 (proj2 (hash_found a (unrolled E))))))).
  apply (calculate_hmac_text E fuel a (evp E P v a)); [intros; apply call_initialize|intros; apply call_free|intros; now apply call_update|intros; now apply call_finalize| | | | | |exact Fu|exact W].
  - intros c e0 s0 r s' X. exact (free_none _ _ _ _ _ _ _ _ X).
  - intros e0 s0 r s' W0 X. exact (kept_initialize E P v a G _ _ _ _ _ W0 X).
  - intros c e0 s0 r s' W0 X. exact (kept_evp_free P v a _ _ _ _ _ W0 X).
  - intros p q m e0 s0 r s' W0 X. exact (kept_update E P v a G _ _ _ _ _ _ _ W0 X).
  - intros p q m e0 s0 r s' W0 X. exact (kept_finalize E P v a G _ _ _ _ _ _ _ W0 X).
Qed.

Lemma honours_bytes : forall P a holds, honours P a holds -> gives_bytes P a.
Proof. intros P a holds H. split; [apply (h_init_bytes _ _ _ H)|split; [apply (h_update_bytes _ _ _ H)|apply (h_final_bytes _ _ _ H)]]. Qed.

(* ------------------------------------------------------------- the digest and the HMAC by the text of both files *)
Lemma both_texts_calculate : forall E P v ex2 fuel a holds, (v = Legacy true -> plat64 E = true) -> honours P a holds -> forall e buffer size hash hash_size s,
  good_state s -> arg s buffer size -> arg s hash hash_size ->
  exists r s', run_evp_hash E P v ex2 fuel a "calculate" [v_bytes buffer; VU RSz size; v_bytes hash; VU RSz hash_size; v_error e] s =
    Done (VS R32 r, [None; None; None; None; None]) s' /\
  good_state s' /\ no_leak s s' /\ only_output a s s' hash /\
  ((r = 1%Z /\ evp_hash_args E v a buffer size hash hash_size /\ (reliable P a -> errs s' = errs s) /\
    exists bp hp, buffer = Some bp /\ hash = Some hp /\
    bytes_at s' hp (digest_size a) = spec_hash a (bytes_at s bp size))
   \/ (r = (-1)%Z /\ errors_added e s s' /\
       (some_alloc_failed E s s' \/ ~ reliable P a \/ ~ evp_hash_args E v a buffer size hash hash_size))).
Proof.
  intros E P v ex2 fuel a holds L H e b n h hn s G A B. destruct (evp_calculate E P v a holds H e b n h hn s G A B) as (r & s' & X & Y).
  change (calculate_with (evp E P v a) a b n h hn e s = Done r s') in X.
  exists r, s'. split; [|exact Y]. rewrite evp_hash_calculate by exact L. unfold bind. rewrite X. reflexivity.
Qed.
Lemma both_texts_hmac : forall E P v ex2 fuel a holds, (v = Legacy true -> plat64 E = true) -> honours P a holds -> (128 <= fuel)%nat ->
  forall e key key_size buffer size hmac hmac_size s,
  good_state s -> arg s key key_size -> arg s buffer size -> arg s hmac hmac_size ->
  exists r s', run_evp_hash E P v ex2 fuel a "calculate_hmac"
      [v_bytes key; VU RSz key_size; v_bytes buffer; VU RSz size; v_bytes hmac; VU RSz hmac_size; v_error e] s =
    Done (VS R32 r, [None; None; None; None; None; None; None]) s' /\
  good_state s' /\ no_leak s s' /\ only_output a s s' hmac /\
  ((r = 1%Z /\ evp_hmac_args E v a key key_size buffer size hmac hmac_size /\ (reliable P a -> errs s' = errs s) /\
    exists kp bp hp, key = Some kp /\ buffer = Some bp /\ hmac = Some hp /\
    bytes_at s' hp (digest_size a) = spec_hmac a (bytes_at s kp key_size) (bytes_at s bp size))
   \/ (r = (-1)%Z /\ errors_added e s s' /\
       (some_alloc_failed E s s' \/ ~ reliable P a \/ ~ evp_hmac_args E v a key key_size buffer size hmac hmac_size))).
Proof.
  intros E P v ex2 fuel a holds L H Fu e k kn b n h hn s G A B C. destruct (evp_hmac E P v a holds H e k kn b n h hn s G A B C) as (r & s' & X & Y).
  change (calculate_hmac_with E (evp E P v a) a k kn b n h hn e s = Done r s') in X.
  exists r, s'. split; [|exact Y]. rewrite evp_hash_hmac; [|exact L|exact (honours_bytes _ _ _ H)|exact G|exact Fu]. unfold bind. rewrite X. reflexivity.
Qed.
