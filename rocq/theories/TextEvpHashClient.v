(* A client of the functions of libhmac_X.c in the builds with libcrypto, by the text of both files. *)
From Coq Require Import Arith NArith ZArith List Bool String Lia.
From Verif Require Import Words Spec Machine MachineFacts Vocab Context Hash Evp EvpVocab EvpFacts CText TextAll TextEvp EvpCalls EvpHash TextEvpClient TextEvpAll.
Import ListNotations.
Open Scope string_scope.
Open Scope list_scope.
Open Scope N_scope.

Lemma hash_text_same : forall E P v ex2 fuel a, (v = Legacy true -> plat64 E = true) ->
  same_functions (hash_by_text E P v ex2 fuel a) (hash_functions (evp E P v a)).
Proof.
  intros E P v ex2 fuel a H. constructor; intros; cbn [hash_by_text hash_functions f_initialize f_free f_update f_finalize]; unfold bind at 1.
  - rewrite evp_hash_initialize. unfold bind at 1. destruct c as [c|].
    + destruct (hash_initialize_with (evp E P v a) (Some c) e s) as [[z [p|]] s'|]; reflexivity.
    + reflexivity.
  - rewrite evp_hash_free. unfold bind at 1. destruct c as [c|].
    + destruct (hash_free_with (evp E P v a) (Some c) e s) as [[z [p|]] s'|]; reflexivity.
    + reflexivity.
  - rewrite evp_hash_update by assumption. unfold bind at 1. destruct (hash_update_with (evp E P v a) c b n e s); reflexivity.
  - rewrite evp_hash_finalize. unfold bind at 1. destruct (hash_finalize_with (evp E P v a) c h n e s); reflexivity.
Qed.

(* the same state with other error entries *)
Definition with_errs (er : list err) (s : state) : state := mk_state (mem s) (tries s) er (resid s).
Lemma with_own : forall s, with_errs (errs s) s = s.
Proof. intros []. reflexivity. Qed.

Section Client.
  Variables (E : env) (P : provider) (v : variant) (a : algid).
  Notation F := (evp E P v a).
  Notation G := (hash_functions F).

  Lemma mfree_errs : forall p er s, mfree p (with_errs er s) = match mfree p s with Done r s' => Done r (with_errs er s') | Undef => Undef end.
  Proof. intros p er s. unfold mfree. cbn [mem with_errs]. destruct (nth_error (mem s) p) as [[[|] [|] o]|]; reflexivity. Qed.
  Lemma set_errs : forall p q er s, set_provider_context p q (with_errs er s) = match set_provider_context p q s with Done r s' => Done r (with_errs er s') | Undef => Undef end.
  Proof.
    intros p q er s. unfold set_provider_context, get_obj, put_obj. cbn [mem with_errs]. destruct (nth_error (mem s) p) as [[[|] k [| |o]]|]; reflexivity.
  Qed.
  Lemma free_errs : forall p er s, evp_free P v a (Some (Some p)) false (with_errs er s) =
    match evp_free P v a (Some (Some p)) false s with Done r s' => Done r (with_errs er s') | Undef => Undef end.
  Proof.
    intros p er s. cbn [evp_free]. destruct v.
    - unfold bind, ret. rewrite mfree_errs. destruct (mfree p s); reflexivity.
    - unfold bind, ret, ask, error_set. destruct (p_cleanup P a (with_errs er s) =? 1)%Z, (p_cleanup P a s =? 1)%Z;
        change (mk_state (mem (with_errs er s)) (tries (with_errs er s)) (errs (with_errs er s)) (resid (with_errs er s))) with (with_errs er s);
        change (mk_state (mem s) (tries s) (errs s) (resid s)) with (with_errs (errs s) s); rewrite ?with_own; rewrite mfree_errs; destruct (mfree p s); reflexivity.
    - unfold bind at 1 2. unfold bind at 1. unfold provider_context at 1. unfold get_obj at 1. cbn [mem with_errs].
      fold (get_obj s p). unfold bind at 2 3. unfold provider_context.
      destruct (get_obj s p) as [[| |[q|]]|]; try reflexivity. unfold bind, ret. rewrite mfree_errs. destruct (mfree q s) as [[] s1|]; [|reflexivity].
      rewrite set_errs. destruct (set_provider_context p None s1) as [[] s2|]; [|reflexivity]. rewrite mfree_errs. destruct (mfree p s2) as [[] s3|]; reflexivity.
  Qed.

  Lemma give_up_errs : forall c er s, client_gives_up G c (with_errs er s) =
    match client_gives_up F c s with Done r s' => Done r (with_errs er s') | Undef => Undef end.
  Proof.
    intros [p|] er s; [|reflexivity]. cbn [client_gives_up hash_functions f_free]. unfold hash_free_with. change (f_free F) with (evp_free P v a). unfold bind. rewrite free_errs.
    destruct (evp_free P v a (Some (Some p)) false s) as [[z c] s1|]; [|reflexivity]. cbn [fst snd]. destruct (z =? 1)%Z; reflexivity.
  Qed.
  Lemma give_up_own : forall c s r s', client_gives_up F c s = Done r s' -> r = false /\ errs s' = errs s.
  Proof.
    intros [p|] s r s' H; [|now injection H as <- <-]. cbn [client_gives_up] in H. change (f_free F) with (evp_free P v a) in H. unfold bind in H.
    pose proof (free_errs p (errs s) s) as X. rewrite with_own in X.
    destruct (evp_free P v a (Some (Some p)) false s) as [y s1|]; [|discriminate]. injection H as <- <-. split; [reflexivity|].
    injection X as X. rewrite X. reflexivity.
  Qed.

  (* one entry more before the last one, if there is an error object *)
  Definition one_more (e : bool) (l l' : list err) : Prop :=
    if e then exists x k k', l = x ++ [k'] /\ l' = x ++ [k; k'] else l' = l.
  Lemma after_failure : forall e k k' s,
    exists er, (error_set e k ;;; error_set e k') s = Done tt (with_errs er (mk_state (mem s) (tries s) (if e then errs s ++ [k'] else errs s) (resid s))) /\
    one_more e (if e then errs s ++ [k'] else errs s) er.
  Proof.
    intros e k k' s. destruct e; eexists; (split; [reflexivity|]); [|reflexivity]. exists (errs s), k, k'. cbn [errs]. split; [reflexivity|]. now rewrite <- app_assoc.
  Qed.

  Lemma updates_more : forall c e ups s r s', client_updates F c ups e s = Done r s' ->
    exists er, client_updates G c ups e s = Done r (with_errs er s') /\ (if r then er = errs s' else one_more e (errs s') er).
  Proof.
    intros c e ups. induction ups as [|[b n] ups IH]; intros s r s' H; cbn [client_updates] in *.
    - injection H as <- <-. exists (errs s). rewrite with_own. split; reflexivity.
    - cbn [hash_functions f_update]. unfold hash_update_with. unfold bind in *. destruct (f_update F c b n e s) as [z s1|]; [|discriminate].
      destruct (z =? 1)%Z; cbn [negb] in *.
      + exact (IH _ _ _ H).
      + injection H as <- <-. destruct (after_failure e E_RUNTIME_SET_FAILED E_RUNTIME_SET_FAILED s1) as (er & X & Y). exists er.
        unfold bind in X. unfold fail, bind, ret. cbn [Z.eqb]. cbn [error_set] in X |- *. unfold error_set in *. cbn [negb]. split; [|exact Y].
        injection X as X. rewrite <- X. reflexivity.
  Qed.

  Lemma client_more : forall e ups h n s r s', client F ups h n e s = Done r s' ->
    exists er, client G ups h n e s = Done r (with_errs er s') /\ (if r then er = errs s' else one_more e (errs s') er).
  Proof.
    intros e ups h n s r s' H. unfold client in *.
    assert (Up : forall k k' c s1 r s', (error_set e k' ;;; client_gives_up F c) s1 = Done r s' ->
      exists er, (error_set e k ;;; error_set e k' ;;; client_gives_up G c) s1 = Done r (with_errs er s') /\ (if r then er = errs s' else one_more e (errs s') er)).
    { intros k k' c s1 r0 s0 X. unfold bind, error_set in X. destruct (give_up_own _ _ _ _ X) as (-> & Er). destruct (after_failure e k k' s1) as (er & A & B).
      exists er. split; [|rewrite Er; exact B].
      change ((error_set e k ;;; error_set e k' ;;; client_gives_up G c) s1) with
        (match (error_set e k ;;; error_set e k') s1 with Done _ t => client_gives_up G c t | Undef => Undef end).
      rewrite A, give_up_errs, X. reflexivity. }
    cbn [hash_functions f_initialize f_finalize f_free]. unfold hash_initialize_with. rewrite bind_assoc. unfold bind at 1. unfold bind at 1 in H.
    destruct (f_initialize F (Some None) e s) as [[z c] s1|]; [|discriminate]. cbn [fst snd] in *.
    destruct (z =? 1)%Z eqn:Z1; cbn [negb] in H.
    2: { apply (Up E_RUNTIME_INITIALIZE_FAILED) in H as (er & X & Y). exists er. split; [|exact Y]. rewrite <- X. reflexivity. }
    rewrite bind_ret. cbn [fst snd]. rewrite Z1. cbn [negb]. unfold bind at 1. unfold bind at 1 in H.
    destruct (client_updates F c ups e s1) as [ok s2|] eqn:U; [|discriminate]. destruct (updates_more _ _ _ _ _ _ U) as (er & X & Y). rewrite X.
    destruct ok; cbn [negb] in *.
    2: { rewrite give_up_errs, H. exists er. split; [reflexivity|]. destruct (give_up_own _ _ _ _ H) as (-> & Er). now rewrite Er. }
    subst er. rewrite with_own. unfold hash_finalize_with. rewrite bind_assoc. unfold bind at 1. unfold bind at 1 in H.
    destruct (f_finalize F c h n e s2) as [z2 s3|]; [|discriminate]. destruct (z2 =? 1)%Z; cbn [negb] in H.
    2: { apply (Up E_RUNTIME_FINALIZE_FAILED) in H as (er & X2 & Y). exists er. split; [|exact Y]. rewrite <- X2. reflexivity. }
    rewrite bind_ret. cbn [Z.eqb Pos.eqb negb]. unfold hash_free_with. rewrite bind_assoc. unfold bind at 1. unfold bind at 1 in H.
    destruct (f_free F (Some c) e s3) as [[z3 c3] s4|]; [|discriminate]. cbn [fst snd] in *. destruct (z3 =? 1)%Z eqn:Z3; cbn [negb] in H.
    2: { apply (Up E_RUNTIME_FINALIZE_FAILED) in H as (er & X3 & Y). exists er. split; [|exact Y]. rewrite <- X3. reflexivity. }
    rewrite bind_ret. cbn [fst snd]. rewrite Z3. cbn [negb]. injection H as <- <-. exists (errs s4). rewrite with_own. split; reflexivity.
  Qed.
End Client.

Lemma both_texts_pieces : forall E P v ex2 fuel a holds, (v = Legacy true -> plat64 E = true) -> honours P a holds -> forall e ups hash hash_size s,
  good_state s -> (forall up, In up ups -> arg s (fst up) (snd up)) -> arg s hash hash_size ->
  exists r s', client (hash_by_text E P v ex2 fuel a) ups hash hash_size e s = Done r s' /\
  good_state s' /\ no_leak s s' /\ only_output a s s' hash /\
  ((r = true /\ client_args E v a ups hash hash_size /\ (reliable P a -> errs s' = errs s) /\
    exists hp, hash = Some hp /\ bytes_at s' hp (digest_size a) = spec_hash a (all_bytes s ups))
   \/ (r = false /\ errors_added e s s' /\
       (some_alloc_failed E s s' \/ ~ reliable P a \/ ~ client_args E v a ups hash hash_size))).
Proof.
  intros E P v ex2 fuel a holds L H e ups hash n s G A B. rewrite (client_same _ _ (hash_text_same E P v ex2 fuel a L)).
  destruct (evp_client E P v a holds H e ups hash n s G A B) as (r & s' & X & G1 & N1 & O1 & Y).
  destruct (client_more E P v a e ups hash n s r s' X) as (er & X2 & Z). exists r, (with_errs er s'). split; [exact X2|].
  split; [exact G1|]. split; [exact N1|]. split; [destruct hash; exact O1|]. destruct Y as [(-> & Y1 & Y2 & Y3)|(-> & Y1 & Y2)].
  - left. split; [reflexivity|]. split; [exact Y1|]. split; [intros R; cbn [with_errs errs]; rewrite Z; now apply Y2|exact Y3].
  - right. split; [reflexivity|]. split; [|exact Y2]. unfold errors_added, one_more in *. cbn [with_errs errs]. destruct e; [|now rewrite Z].
    destruct Y1 as (k & ks & Y1), Z as (x & k1 & k2 & Z1 & Z2). rewrite Y1 in Z1.
    destruct (exists_last (l := k :: ks) ltac:(discriminate)) as (m & k3 & M). rewrite M, app_assoc in Z1. apply app_inj_tail in Z1 as (Z1 & Z3). subst x.
    rewrite Z2, <- app_assoc. destruct m as [|m0 m]; [now exists k1, [k2]|]. exists m0, (m ++ [k1; k2]). reflexivity.
Qed.
