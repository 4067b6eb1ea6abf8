(* The text of libhmac_X.c, but for calculate_hmac, does what Hash.v says. *)
From Coq Require Import Arith NArith ZArith List Lia Bool String.
From Verif Require Import Words Spec Machine Context Hash CText TextMd5 TextSha1 TextSha224 TextSha256 TextSha512 TextAll.
From Verif Require Import Vocab MachineFacts TransformFacts ContextFacts DigestFacts HashFacts TextFacts TextContext TextUpdate
  TextLoops TextTransform TextFinalize TextSteps.
Import ListNotations.
Open Scope string_scope.
Open Scope list_scope.
Open Scope N_scope.

Notation set_error c :=
  (SExpr (ECall "libcerror_error_set" [(EVar "error"); (EName "LIBCERROR_ERROR_DOMAIN_RUNTIME"); (EName c)])).
Notation e_initialize := "LIBCERROR_RUNTIME_ERROR_INITIALIZE_FAILED".
Notation e_set := "LIBCERROR_RUNTIME_ERROR_SET_FAILED".
Notation e_finalize := "LIBCERROR_RUNTIME_ERROR_FINALIZE_FAILED".

(* ------------------------------------------------------------- the functions that pass on their arguments *)

Definition wrap_text (f : string) (args : list expr) (c : string) : stmt :=
  SIf (EBin ONe (ECall f args) (EInt 1)) (set_error c ;- SReturn (EInt (-1))) SSkip ;- SReturn (EInt 1).

Definition initialize_def (a : algid) (u : bool) : fundef :=
  match a with
  | MD5 => text_libhmac_md5_initialize u | SHA1 => text_libhmac_sha1_initialize u
  | SHA224 => text_libhmac_sha224_initialize u | SHA256 => text_libhmac_sha256_initialize u
  | SHA512 => text_libhmac_sha512_initialize u
  end.
Definition free_def (a : algid) (u : bool) : fundef :=
  match a with
  | MD5 => text_libhmac_md5_free u | SHA1 => text_libhmac_sha1_free u
  | SHA224 => text_libhmac_sha224_free u | SHA256 => text_libhmac_sha256_free u
  | SHA512 => text_libhmac_sha512_free u
  end.
Definition update_w_def (a : algid) (u : bool) : fundef :=
  match a with
  | MD5 => text_libhmac_md5_update u | SHA1 => text_libhmac_sha1_update u
  | SHA224 => text_libhmac_sha224_update u | SHA256 => text_libhmac_sha256_update u
  | SHA512 => text_libhmac_sha512_update u
  end.
Definition finalize_w_def (a : algid) (u : bool) : fundef :=
  match a with
  | MD5 => text_libhmac_md5_finalize u | SHA1 => text_libhmac_sha1_finalize u
  | SHA224 => text_libhmac_sha224_finalize u | SHA256 => text_libhmac_sha256_finalize u
  | SHA512 => text_libhmac_sha512_finalize u
  end.

Lemma wrap_bodies : forall a u,
  f_body (initialize_def a u) = wrap_text (name_of a "context_initialize") [EVar "context"; EVar "error"] e_initialize /\
  f_body (free_def a u) = wrap_text (name_of a "context_free") [EVar "context"; EVar "error"] e_finalize /\
  f_body (update_w_def a u) = wrap_text (name_of a "context_update") [EVar "context"; EVar "buffer"; EVar "size"; EVar "error"] e_set /\
  f_body (finalize_w_def a u) = wrap_text (name_of a "context_finalize") [EVar "context"; EVar "hash"; EVar "hash_size"; EVar "error"] e_finalize.
Proof. intros [] []; repeat split; reflexivity. Qed.

Definition plain (def : fundef) (n : nat) : Prop :=
  f_arrays def = [] /\ f_ret def = (true, R32) /\ List.length (f_params def) = n.
Lemma wrap_plain : forall a u,
  plain (initialize_def a u) 2 /\ plain (free_def a u) 2 /\ plain (update_w_def a u) 4 /\ plain (finalize_w_def a u) 4.
Proof. intros [] u; repeat split; reflexivity. Qed.
Lemma plain_leave : forall E def n z l s, plain def n -> leave E def (FReturn (VS R32 z)) l s = Done (VS R32 z, outs_of n l) s.
Proof. intros E def n z l s (G1 & G2 & G3). rewrite (leave_plain E _ _ (VS R32 z) _ _ G1); [now rewrite G3|rewrite G2; reflexivity]. Qed.

Lemma wrap_run : forall E fuel d a def n f es c k e l (B : Type) (m : M B) (g : B -> Z) outs lr vs kl ke s,
  plain def n -> error_of "LIBCERROR_ERROR_DOMAIN_RUNTIME" c = Some k ->
  evs E (text_of a (unrolled E)) (call_text E (text_of a (unrolled E)) fuel d) es l s = Done (vs, l) s -> is_external f = false ->
  call_text E (text_of a (unrolled E)) fuel d f vs s = (r <- m ;; ret (VS R32 (g r), outs r)) s ->
  (forall r, copy_out es (outs r) l = Some (lr r)) -> (forall r, lget (lr r) "error" = Some (v_error e)) ->
  kl = leave E def ->
  ke = (fun fl l => match fl with
                    | FReturn v => kl fl l
                    | FBreak => undef
                    | _ => in_text E a fuel d (f_error def) l kl
                    end) ->
  in_text E a fuel d (wrap_text f es c) l ke s =
  (r <- m ;; z <- (if (g r =? 1)%Z then ret 1%Z else fail e k) ;; ret (VS R32 z, outs_of n (lr r))) s.
Proof.
  intros E fuel d a def n f es c k e l B m g outs lr vs kl ke s Pl Hc Hv Hx Hf Ho He Hkl Hke. unfold wrap_text.
  rewrite den_seq. erewrite checked by eassumption. apply bind_ext. intros r s1 _.
  destruct (g r =? 1)%Z; cbn [negb].
  - rewrite den_skip. rewrite den_return_int, Hke, Hkl. rewrite (plain_leave _ _ n) by exact Pl. reflexivity.
  - rewrite den_seq. erewrite erred by (exact Hc || apply He). unfold fail. rewrite bind_assoc. apply bind_ext. intros [] s2 _.
    rewrite den_return_int, Hke, Hkl. rewrite (plain_leave _ _ n) by exact Pl. reflexivity.
Qed.

Definition place_locals (a : algid) (c : option (option nat)) (e : bool) : locals :=
  [("context", v_place a c); ("error", v_error e)].

Lemma place_after : forall a c e x,
  copy_out [EVar "context"; EVar "error"] [left_at a c x; None] (place_locals a c e) =
  Some (place_locals a (option_map (fun _ => x) c) e).
Proof. intros a [c|] e x; reflexivity. Qed.
Lemma place_outs : forall a c e x, outs_of 2 (place_locals a (option_map (fun _ => x) c) e) = [left_at a c x; None].
Proof. intros a [c|] [] x; reflexivity. Qed.

Lemma text_hash_initialize : forall E fuel d a c e s,
  call_text E (text_of a (unrolled E)) fuel (S (S d)) (name_of a "initialize") [v_place a c; v_error e] s =
  (r <- hash_initialize E a c e ;; ret (VS R32 (fst r), [left_at a c (snd r); None])) s.
Proof.
  intros E fuel d a c e s.
  assert (En : forall R, (forall kl ke, kl = leave E (initialize_def a (unrolled E)) ->
    ke = (fun fl l => match fl with
                      | FReturn v => kl fl l
                      | FBreak => undef
                      | _ => in_text E a fuel (S d) (f_error (initialize_def a (unrolled E))) l kl
                      end) ->
     in_text E a fuel (S d) (f_body (initialize_def a (unrolled E))) (place_locals a c e) ke s = R) ->
    call_text E (text_of a (unrolled E)) fuel (S (S d)) (name_of a "initialize") [v_place a c; v_error e] s = R).
  { intros R H. destruct a; (eapply enter_fun; [reflexivity | tpar | reflexivity | tloc | exact H]). }
  apply En. intros kl ke Hkl Hke. rewrite (proj1 (wrap_bodies a (unrolled E))).
  erewrite (wrap_run E fuel (S d) a (initialize_def a (unrolled E)) 2) with (e := e);
    [ | apply wrap_plain | reflexivity | unfold place_locals; hev | apply name_plain | apply text_initialize
      | intros r; apply place_after | intros r; reflexivity | exact Hkl | exact Hke ].
  unfold hash_initialize. rewrite bind_assoc. apply bind_ext. intros r s1 _.
  destruct (Z.eqb_spec (fst r) 1) as [H1|H1].
  - rewrite !bind_ret, H1, place_outs. reflexivity.
  - rewrite !bind_assoc. apply bind_ext. intros z s2 _. rewrite bind_ret, place_outs. reflexivity.
Qed.

Lemma text_hash_free : forall E fuel d a c e s,
  call_text E (text_of a (unrolled E)) fuel (S (S d)) (name_of a "free") [v_place a c; v_error e] s =
  (r <- hash_free a c e ;; ret (VS R32 (fst r), [left_at a c (snd r); None])) s.
Proof.
  intros E fuel d a c e s.
  assert (En : forall R, (forall kl ke, kl = leave E (free_def a (unrolled E)) ->
    ke = (fun fl l => match fl with
                      | FReturn v => kl fl l
                      | FBreak => undef
                      | _ => in_text E a fuel (S d) (f_error (free_def a (unrolled E))) l kl
                      end) ->
     in_text E a fuel (S d) (f_body (free_def a (unrolled E))) (place_locals a c e) ke s = R) ->
    call_text E (text_of a (unrolled E)) fuel (S (S d)) (name_of a "free") [v_place a c; v_error e] s = R).
  { intros R H. destruct a; (eapply enter_fun; [reflexivity | tpar | reflexivity | tloc | exact H]). }
  apply En. intros kl ke Hkl Hke. rewrite (proj1 (proj2 (wrap_bodies a (unrolled E)))).
  erewrite (wrap_run E fuel (S d) a (free_def a (unrolled E)) 2) with (e := e);
    [ | apply wrap_plain | reflexivity | unfold place_locals; hev | apply name_plain | apply text_free
      | intros r; apply place_after | intros r; reflexivity | exact Hkl | exact Hke ].
  unfold hash_free. rewrite bind_assoc. apply bind_ext. intros r s1 _.
  destruct (Z.eqb_spec (fst r) 1) as [H1|H1].
  - rewrite !bind_ret, H1, place_outs. reflexivity.
  - rewrite !bind_assoc. apply bind_ext. intros z s2 _. rewrite bind_ret, place_outs. reflexivity.
Qed.

Lemma plain_outs : forall x1 x2 x3 x4 a p b n e,
  outs_of 4 [(x1, v_ctx a p); (x2, v_bytes b); (x3, VU RSz n); (x4, v_error e)] = [None; None; None; None].
Proof. intros x1 x2 x3 x4 a [p|] [b|] n []; reflexivity. Qed.

Lemma text_hash_update : forall E fuel d a p b n e s,
  call_text E (text_of a (unrolled E)) fuel (S d) (name_of a "context_update") [v_ctx a p; v_bytes b; VU RSz n; v_error e] s =
    (r <- context_update E a p b n e ;; ret (VS R32 r, [None; None; None; None])) s ->
  call_text E (text_of a (unrolled E)) fuel (S (S d)) (name_of a "update") [v_ctx a p; v_bytes b; VU RSz n; v_error e] s =
  (r <- hash_update E a p b n e ;; ret (VS R32 r, [None; None; None; None])) s.
Proof.
  intros E fuel d a p b n e s HU.
  set (l0 := [("context", v_ctx a p); ("buffer", v_bytes b); ("size", VU RSz n); ("error", v_error e)]).
  assert (En : forall R, (forall kl ke, kl = leave E (update_w_def a (unrolled E)) ->
    ke = (fun fl l => match fl with
                      | FReturn v => kl fl l
                      | FBreak => undef
                      | _ => in_text E a fuel (S d) (f_error (update_w_def a (unrolled E))) l kl
                      end) ->
     in_text E a fuel (S d) (f_body (update_w_def a (unrolled E))) l0 ke s = R) ->
    call_text E (text_of a (unrolled E)) fuel (S (S d)) (name_of a "update") [v_ctx a p; v_bytes b; VU RSz n; v_error e] s = R).
  { intros R H. clear HU. destruct a; (eapply enter_fun; [reflexivity | tpar | reflexivity | tloc | exact H]). }
  apply En. intros kl ke Hkl Hke. rewrite (proj1 (proj2 (proj2 (wrap_bodies a (unrolled E))))).
  erewrite (wrap_run E fuel (S d) a (update_w_def a (unrolled E)) 4) with (e := e) (lr := fun _ => l0) (g := fun r => r);
    [ | apply wrap_plain | reflexivity | unfold l0; hev | apply name_plain | exact HU
      | intros r; reflexivity | intros r; reflexivity | exact Hkl | exact Hke ].
  unfold hash_update. rewrite bind_assoc. apply bind_ext. intros r s1 _. apply bind_ext. intros z s2 _.
  unfold l0. rewrite plain_outs. reflexivity.
Qed.

Lemma text_hash_finalize : forall E fuel d a p b n e s,
  call_text E (text_of a (unrolled E)) fuel (S d) (name_of a "context_finalize") [v_ctx a p; v_bytes b; VU RSz n; v_error e] s =
    (r <- context_finalize E a p b n e ;; ret (VS R32 r, [None; None; None; None])) s ->
  call_text E (text_of a (unrolled E)) fuel (S (S d)) (name_of a "finalize") [v_ctx a p; v_bytes b; VU RSz n; v_error e] s =
  (r <- hash_finalize E a p b n e ;; ret (VS R32 r, [None; None; None; None])) s.
Proof.
  intros E fuel d a p b n e s HU.
  set (l0 := [("context", v_ctx a p); ("hash", v_bytes b); ("hash_size", VU RSz n); ("error", v_error e)]).
  assert (En : forall R, (forall kl ke, kl = leave E (finalize_w_def a (unrolled E)) ->
    ke = (fun fl l => match fl with
                      | FReturn v => kl fl l
                      | FBreak => undef
                      | _ => in_text E a fuel (S d) (f_error (finalize_w_def a (unrolled E))) l kl
                      end) ->
     in_text E a fuel (S d) (f_body (finalize_w_def a (unrolled E))) l0 ke s = R) ->
    call_text E (text_of a (unrolled E)) fuel (S (S d)) (name_of a "finalize") [v_ctx a p; v_bytes b; VU RSz n; v_error e] s = R).
  { intros R H. clear HU. destruct a; (eapply enter_fun; [reflexivity | tpar | reflexivity | tloc | exact H]). }
  apply En. intros kl ke Hkl Hke. rewrite (proj2 (proj2 (proj2 (wrap_bodies a (unrolled E))))).
  erewrite (wrap_run E fuel (S d) a (finalize_w_def a (unrolled E)) 4) with (e := e) (lr := fun _ => l0) (g := fun r => r);
    [ | apply wrap_plain | reflexivity | unfold l0; hev | apply name_plain | exact HU
      | intros r; reflexivity | intros r; reflexivity | exact Hkl | exact Hke ].
  unfold hash_finalize. rewrite bind_assoc. apply bind_ext. intros r s1 _. apply bind_ext. intros z s2 _.
  unfold l0. rewrite plain_outs. reflexivity.
Qed.

(* ------------------------------------------------------------- calculate *)

Definition calc_def (a : algid) (u : bool) : fundef :=
  match a with
  | MD5 => text_libhmac_md5_calculate u | SHA1 => text_libhmac_sha1_calculate u
  | SHA224 => text_libhmac_sha224_calculate u | SHA256 => text_libhmac_sha256_calculate u
  | SHA512 => text_libhmac_sha512_calculate u
  end.

(* if( f( ... ) != 1 ) { error; goto on_error; } *)
Notation must f args c := (SIf (EBin ONe (ECall f args) (EInt 1)) (set_error c ;- SGoto) SSkip).

Definition calc_text (a : algid) : stmt :=
  must (name_of a "context_initialize") [ERef "context"; EVar "error"] e_initialize ;-
  must (name_of a "context_update") [EVar "context"; EVar "buffer"; EVar "size"; EVar "error"] e_set ;-
  must (name_of a "context_finalize") [EVar "context"; EVar "hash"; EVar "hash_size"; EVar "error"] e_finalize ;-
  must (name_of a "context_free") [ERef "context"; EVar "error"] e_finalize ;-
  SReturn (EInt 1).
Definition calc_error (a : algid) : stmt :=
  SIf (EBin ONe (EVar "context") ENull) (SExpr (ECall (name_of a "context_free") [ERef "context"; ENull])) SSkip ;-
  SReturn (EInt (-1)).
Lemma calc_eq : forall a u, f_body (calc_def a u) = calc_text a /\ f_error (calc_def a u) = calc_error a /\ plain (calc_def a u) 5.
Proof. intros [] []; repeat split; reflexivity. Qed.

Definition calc_locals (a : algid) (b : option ptr) (n : N) (h : option ptr) (hn : N) (e : bool) (c : option nat) : locals :=
  [("buffer", v_bytes b); ("size", VU RSz n); ("hash", v_bytes h); ("hash_size", VU RSz hn); ("error", v_error e);
   ("context", v_ctx a c)].
Lemma calc_outs : forall a b n h hn e c, outs_of 5 (calc_locals a b n h hn e c) = [None; None; None; None; None].
Proof. intros a [b|] n [h|] hn [] c; reflexivity. Qed.

Lemma null_ctx : forall a p, is_null (v_ctx a p) = Some (match p with Some _ => false | None => true end).
Proof. intros a []; reflexivity. Qed.
Lemma null_bytes : forall p, is_null (v_bytes p) = Some (match p with Some _ => false | None => true end).
Proof. intros []; reflexivity. Qed.

Lemma calc_on_error : forall E fuel d a b n h hn e c s,
  in_text E a fuel (S d) (calc_error a) (calc_locals a b n h hn e c) (leave E (calc_def a (unrolled E))) s =
  (z <- calculate_on_error a c ;; ret (VS R32 z, [None; None; None; None; None])) s.
Proof.
  intros E fuel d a b n h hn e c s. unfold calc_error. rewrite den_seq.
  erewrite given; [|unfold calc_locals; bypair|apply null_ctx]. destruct c as [c|]; cbn [calculate_on_error].
  - erewrite called with (lr := fun r => calc_locals a b n h hn e (snd r));
      [|unfold calc_locals; hev|apply name_plain|apply (text_free E fuel d a (Some (Some c)) false)|intros r; reflexivity].
    rewrite bind_assoc. apply bind_ext. intros r s1 _. rewrite den_return_int.
    rewrite (plain_leave _ _ 5) by apply calc_eq. rewrite calc_outs. reflexivity.
  - rewrite den_skip, den_return_int, (plain_leave _ _ 5) by apply calc_eq. rewrite calc_outs. reflexivity.
Qed.

Lemma text_calculate : forall E fuel d a b n h hn e s,
  transform_as_modelled E fuel d a -> wf_state s -> enough fuel n -> enough fuel 256 -> n < size_mod E -> hn < size_mod E ->
  (forall q, b = Some q -> n <= ssize_max E -> accessible s q n) ->
  (forall q, h = Some q -> a_hs (alg_of a) <= hn -> hn <= ssize_max E -> accessible s q (a_hs (alg_of a))) ->
  call_text E (text_of a (unrolled E)) fuel (S (S d)) (name_of a "calculate")
    [v_bytes b; VU RSz n; v_bytes h; VU RSz hn; v_error e] s =
  (z <- calculate E a b n h hn e ;; ret (VS R32 z, [None; None; None; None; None])) s.
Proof.
  intros E fuel d a b n h hn e s TT W F1 F2 Hn Hhn HB HH.
  assert (En : forall R, (forall kl ke, kl = leave E (calc_def a (unrolled E)) ->
    ke = (fun fl l => match fl with
                      | FReturn v => kl fl l
                      | FBreak => undef
                      | _ => in_text E a fuel (S d) (f_error (calc_def a (unrolled E))) l kl
                      end) ->
     in_text E a fuel (S d) (f_body (calc_def a (unrolled E))) (calc_locals a b n h hn e None) ke s = R) ->
    call_text E (text_of a (unrolled E)) fuel (S (S d)) (name_of a "calculate")
      [v_bytes b; VU RSz n; v_bytes h; VU RSz hn; v_error e] s = R).
  { intros R H. clear TT. destruct a; (eapply enter_fun; [reflexivity | tpar | reflexivity | tloc | exact H]). }
  apply En. intros kl ke Hkl Hke. clear En. destruct (calc_eq a (unrolled E)) as (B1 & B2 & B3). rewrite B1, B2 in *.
  assert (Err : forall c s, ke FError (calc_locals a b n h hn e c) s = (z <- calculate_on_error a c ;; ret (VS R32 z, [None; None; None; None; None])) s).
  { intros c s'. rewrite Hke, Hkl. apply calc_on_error. }
  assert (Ret : forall z c s, ke (FReturn (VS R32 z)) (calc_locals a b n h hn e c) s = Done (VS R32 z, [None; None; None; None; None]) s).
  { intros z c s'. rewrite Hke, Hkl, (plain_leave _ _ 5) by exact B3. now rewrite calc_outs. }
  clear Hkl Hke B1 B2 B3. unfold calc_text, calculate. rewrite den_seq, bind_assoc.
  erewrite checked with (lr := fun r => calc_locals a b n h hn e (snd r));
    [|unfold calc_locals; hev|apply name_plain|apply (text_initialize E fuel d a (Some None) e)|intros r; reflexivity].
  apply bind_ext. intros r s1 Hr. destruct (initialize_keeps E a e s r s1 W Hr) as (W1 & S1 & Ok & _). clear Hr.
  destruct (fst r =? 1)%Z; cbn [negb].
  2: { rewrite den_seq. erewrite erred by reflexivity. rewrite bind_assoc. apply bind_ext. intros [] s2 _. rewrite den_goto. apply Err. }
  destruct (Ok eq_refl) as (Er & c & Gc). rewrite Er. clear Ok Er r. set (p := List.length (mem s)) in *.
  rewrite den_skip, den_seq, bind_assoc.
  assert (HB1 : forall q, b = Some q -> n <= ssize_max E -> accessible s1 q n).
  { intros q Hq Hm. eapply stays_access; [exact S1|exact (access_lt _ _ _ (HB q Hq Hm))|exact (HB q Hq Hm)]. }
  erewrite checked with (lr := fun r => calc_locals a b n h hn e (Some p)) (g := fun r => r);
    [|unfold calc_locals; hev|apply name_plain
     |apply text_update; [exact TT|exact W1|exact F1|exact Hn|unfold enough in *; lia|intros q Hq; injection Hq as <-; eauto|exact HB1]
     |intros r; reflexivity].
  apply bind_ext. intros r s2 Hr. destruct (update_keeps E a p b n e s1 r s2 W1 (ex_intro _ _ Gc) HB1 Hr) as (W2 & S2). clear Hr.
  destruct (r =? 1)%Z; cbn [negb].
  2: { rewrite den_seq. erewrite erred by reflexivity. rewrite bind_assoc. apply bind_ext. intros [] s3 _. rewrite den_goto. apply Err. }
  rewrite den_skip, den_seq, bind_assoc.
  destruct (proj2 (proj2 (S2 (S p)) p ltac:(lia)) _ _ Gc) as (c2 & Gc2).
  assert (HH2 : forall q, h = Some q -> a_hs (alg_of a) <= hn -> hn <= ssize_max E -> accessible s2 q (a_hs (alg_of a))).
  { intros q Hq Hm1 Hm2. pose proof (HH q Hq Hm1 Hm2) as Ac. pose proof (access_lt _ _ _ Ac).
    eapply stays_access; [exact (S2 p)|assumption|]. eapply stays_access; [exact S1|assumption|exact Ac]. }
  erewrite checked with (lr := fun r => calc_locals a b n h hn e (Some p)) (g := fun r => r);
    [|unfold calc_locals; hev|apply name_plain
     |apply text_finalize; [exact TT|exact W2|exact F2|exact Hhn|intros q Hq; injection Hq as <-; eauto|exact HH2]
     |intros r'; reflexivity].
  apply bind_ext. intros r' s3 Hr. destruct (finalize_keeps E a p h hn e s2 r' s3 W2 (ex_intro _ _ Gc2) HH2 Hr) as (W3 & S3). clear Hr.
  destruct (r' =? 1)%Z; cbn [negb].
  2: { rewrite den_seq. erewrite erred by reflexivity. rewrite bind_assoc. apply bind_ext. intros [] s4 _. rewrite den_goto. apply Err. }
  rewrite den_skip, den_seq, bind_assoc.
  erewrite checked with (lr := fun r => calc_locals a b n h hn e (snd r));
    [|unfold calc_locals; hev|apply name_plain|apply (text_free E fuel d a (Some (Some p)) e)|intros r0; reflexivity].
  apply bind_ext. intros r0 s4 _. destruct (fst r0 =? 1)%Z; cbn [negb].
  2: { rewrite den_seq. erewrite erred by reflexivity. rewrite bind_assoc. apply bind_ext. intros [] s5 _. rewrite den_goto. apply Err. }
  rewrite den_skip, den_return_int. apply Ret.
Qed.
