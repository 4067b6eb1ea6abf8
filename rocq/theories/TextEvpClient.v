(* Those that call the functions of libhmac_X_context.c in the builds with libcrypto, with the text of these functions. *)
From Coq Require Import Arith NArith ZArith List Bool String.
From Verif Require Import Words Spec Machine MachineFacts Vocab Context Hash Evp EvpVocab EvpFacts CText TextAll TextEvp EvpCalls
  TextEvpInit TextEvpFree TextEvpUpdate TextEvpFinalize.
Import ListNotations.
Open Scope string_scope.
Open Scope list_scope.
Open Scope N_scope.

(* functions that do the same *)
Record same_functions (F G : functions) : Prop := {
  same_initialize : forall c e s, f_initialize F c e s = f_initialize G c e s;
  same_free : forall c e s, f_free F c e s = f_free G c e s;
  same_update : forall c b n e s, f_update F c b n e s = f_update G c b n e s;
  same_finalize : forall c h n e s, f_finalize F c h n e s = f_finalize G c h n e s;
}.

Lemma by_text_same : forall E P v ex2 fuel a, (v = Legacy true -> plat64 E = true) -> same_functions (evp_by_text E P v ex2 fuel a) (evp E P v a).
Proof.
  intros E P v ex2 fuel a H. constructor; intros; cbn [evp_by_text evp f_initialize f_free f_update f_finalize]; unfold bind at 1.
  - rewrite evp_initialize_agrees. unfold bind, ret. destruct c as [[q|]|].
    + cbn [evp_initialize]. reflexivity.
    + destruct (evp_initialize E P v a (Some None) e s) as [[z [p|]] s'|]; reflexivity.
    + cbn [evp_initialize]. reflexivity.
  - rewrite evp_free_agrees. unfold bind, ret. destruct c as [[q|]|].
    + destruct (evp_free P v a (Some (Some q)) e s) as [[z [p|]] s'|]; reflexivity.
    + reflexivity.
    + reflexivity.
  - rewrite evp_update_agrees by assumption. unfold bind, ret. destruct (evp_update E P v a c b n e s); reflexivity.
  - rewrite evp_finalize_agrees. unfold bind, ret. destruct (evp_finalize E P v a c h n e s); reflexivity.
Qed.

Section Same.
  Variables F G : functions.
  Hypothesis H : same_functions F G.

  Lemma bind_same : forall A B (m m' : M A) (k k' : A -> M B) s,
    m s = m' s -> (forall x t, k x t = k' x t) -> bind m k s = bind m' k' s.
  Proof. intros A B m m' k k' s X Y. unfold bind. rewrite X. destruct (m' s); auto. Qed.

  Ltac same :=
    repeat first
      [ reflexivity
      | apply (same_initialize F G H) | apply (same_free F G H) | apply (same_update F G H) | apply (same_finalize F G H)
      | apply bind_same; [|intros]
      | match goal with |- context [if ?b then _ else _] => destruct b end
      | match goal with |- context [match ?x with Some _ => _ | None => _ end] => destruct x end ].

  Lemma client_updates_same : forall ups c e s, client_updates F c ups e s = client_updates G c ups e s.
  Proof. induction ups as [|[b n] ups IH]; intros c e s; cbn [client_updates]; [reflexivity|]. apply bind_same; [same|]. intros r t. destruct (negb (r =? 1)%Z); [same|apply IH]. Qed.
  Lemma client_same : forall ups h n e s, client F ups h n e s = client G ups h n e s.
  Proof.
    intros. unfold client, client_gives_up. apply bind_same; [same|]. intros r t. destruct (negb (fst r =? 1)%Z); [same|].
    apply bind_same; [apply client_updates_same|]. intros ok t'. same.
  Qed.
  Lemma calculate_with_same : forall a b n h hn e s, calculate_with F a b n h hn e s = calculate_with G a b n h hn e s.
  Proof. intros. unfold calculate_with, calculate_on_error_with. same. Qed.
  Lemma calculate_hmac_with_same : forall E a k kn b n h hn e s, calculate_hmac_with E F a k kn b n h hn e s = calculate_hmac_with E G a k kn b n h hn e s.
  Proof.
    intros. unfold calculate_hmac_with, calculate_hmac_body_with, hmac_on_error_with, hmac_key_data_with, hmac_pass_with. same.
  Qed.
End Same.

Lemma text_pieces : forall E P v ex2 fuel a holds, (v = Legacy true -> plat64 E = true) -> honours P a holds -> forall e ups hash hash_size s,
  good_state s -> (forall up, In up ups -> arg s (fst up) (snd up)) -> arg s hash hash_size ->
  exists r s', client (evp_by_text E P v ex2 fuel a) ups hash hash_size e s = Done r s' /\
  good_state s' /\ no_leak s s' /\ only_output a s s' hash /\
  ((r = true /\ client_args E v a ups hash hash_size /\ (reliable P a -> errs s' = errs s) /\
    exists hp, hash = Some hp /\ bytes_at s' hp (digest_size a) = spec_hash a (all_bytes s ups))
   \/ (r = false /\ errors_added e s s' /\
       (some_alloc_failed E s s' \/ ~ reliable P a \/ ~ client_args E v a ups hash hash_size))).
Proof.
  intros E P v ex2 fuel a holds L H e ups hash hash_size s G A B. rewrite (client_same _ _ (by_text_same E P v ex2 fuel a L)). now apply (evp_client E P v a holds H).
Qed.

Lemma text_calculate : forall E P v ex2 fuel a holds, (v = Legacy true -> plat64 E = true) -> honours P a holds -> forall e buffer size hash hash_size s,
  good_state s -> arg s buffer size -> arg s hash hash_size ->
  exists r s', calculate_with (evp_by_text E P v ex2 fuel a) a buffer size hash hash_size e s = Done r s' /\
  good_state s' /\ no_leak s s' /\ only_output a s s' hash /\
  ((r = 1%Z /\ evp_hash_args E v a buffer size hash hash_size /\ (reliable P a -> errs s' = errs s) /\
    exists bp hp, buffer = Some bp /\ hash = Some hp /\
    bytes_at s' hp (digest_size a) = spec_hash a (bytes_at s bp size))
   \/ (r = (-1)%Z /\ errors_added e s s' /\
       (some_alloc_failed E s s' \/ ~ reliable P a \/ ~ evp_hash_args E v a buffer size hash hash_size))).
Proof.
  intros E P v ex2 fuel a holds L H e b n h hn s G A B. rewrite (calculate_with_same _ _ (by_text_same E P v ex2 fuel a L)). now apply (evp_calculate E P v a holds H).
Qed.

Lemma text_hmac : forall E P v ex2 fuel a holds, (v = Legacy true -> plat64 E = true) -> honours P a holds ->
  forall e key key_size buffer size hmac hmac_size s,
  good_state s -> arg s key key_size -> arg s buffer size -> arg s hmac hmac_size ->
  exists r s', calculate_hmac_with E (evp_by_text E P v ex2 fuel a) a key key_size buffer size hmac hmac_size e s = Done r s' /\
  good_state s' /\ no_leak s s' /\ only_output a s s' hmac /\
  ((r = 1%Z /\ evp_hmac_args E v a key key_size buffer size hmac hmac_size /\ (reliable P a -> errs s' = errs s) /\
    exists kp bp hp, key = Some kp /\ buffer = Some bp /\ hmac = Some hp /\
    bytes_at s' hp (digest_size a) = spec_hmac a (bytes_at s kp key_size) (bytes_at s bp size))
   \/ (r = (-1)%Z /\ errors_added e s s' /\
       (some_alloc_failed E s s' \/ ~ reliable P a \/ ~ evp_hmac_args E v a key key_size buffer size hmac hmac_size))).
Proof.
  intros E P v ex2 fuel a holds L H e k kn b n h hn s G A B C. rewrite (calculate_hmac_with_same _ _ (by_text_same E P v ex2 fuel a L)).
  now apply (evp_hmac E P v a holds H).
Qed.
