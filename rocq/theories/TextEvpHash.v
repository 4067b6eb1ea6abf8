(* The text of libhmac_X.c, with calls that do what the functions F do, does what Evp.v says. *)
From Coq Require Import Arith NArith ZArith List Lia Bool String.
From Verif Require Import Words Spec Machine Context Hash CText TextMd5 TextSha1 TextSha224 TextSha256 TextSha512 TextAll Evp TextEvp EvpCalls EvpHash.
From Verif Require Import Vocab MachineFacts TransformFacts ContextFacts DigestFacts HashFacts HmacFacts WordFacts TextFacts TextContext TextUpdate
  TextLoops TextTransform TextFinalize TextSteps TextHash TextHmac.
Import ListNotations.
Open Scope string_scope.
Open Scope list_scope.
Open Scope N_scope.

Lemma enter_run : forall E P call fuel def args s l a s1 l1 s2 R,
  bind_params E (f_params def) args = Some l ->
  enter_arrays E (f_arrays def) 0 s = Done a s1 ->
  enter_locals E P call (f_locals def) (l ++ a) s1 = Done l1 s2 ->
  (forall kl ke, kl = leave E def ->
                ke = (fun fl l => match fl with
                             | FReturn v => kl fl l
                             | FBreak => undef
                             | _ => @den E P call fuel _ (f_error def) l kl
                             end) ->
     @den E P call fuel _ (f_body def) l1 ke s2 = R) ->
  run_fun E P call fuel def args s = R.
Proof. intros E P call fuel def args s l a s1 l1 s2 R H2 H3 H4 H5. rewrite run_fun_eq, H2, H3, H4. eapply H5; reflexivity. Qed.

Section Calls.
  Variables (E : env) (fuel : nat) (a : algid) (F : functions) (call : string -> list val -> M (val * list (option val))).
  Hypothesis CI : forall c e s, call (name_of a "context_initialize") [v_place a c; v_error e] s =
    (r <- f_initialize F c e ;; ret (VS R32 (fst r), [left_at a c (snd r); None])) s.
  Hypothesis CF : forall c e s, call (name_of a "context_free") [v_place a c; v_error e] s =
    (r <- f_free F c e ;; ret (VS R32 (fst r), [left_at a c (snd r); None])) s.
  Hypothesis CU : forall p q v m e s, to_unsigned E RSz v = Some m ->
    call (name_of a "context_update") [v_ctx a p; v_bytes q; v; v_error e] s =
    (r <- f_update F p q m e ;; ret (VS R32 r, [None; None; None; None])) s.
  Hypothesis CZ : forall p q v m e s, to_unsigned E RSz v = Some m ->
    call (name_of a "context_finalize") [v_ctx a p; v_bytes q; v; v_error e] s =
    (r <- f_finalize F p q m e ;; ret (VS R32 r, [None; None; None; None])) s.

  Notation txt := (text_of a (unrolled E)).
  Notation dn := (@den E txt call fuel _).

  (* ------------------------------------------------------------- calculate *)
  Lemma calc_on_error_with : forall b n h hn e c s,
    dn (calc_error a) (calc_locals a b n h hn e c) (leave E (calc_def a (unrolled E))) s =
    (z <- calculate_on_error_with F c ;; ret (VS R32 z, [None; None; None; None; None])) s.
  Proof.
    intros b n h hn e c s. unfold calc_error. rewrite den_seq.
    erewrite given; [|unfold calc_locals; bypair|apply null_ctx]. destruct c as [c|]; cbn [calculate_on_error_with].
    - erewrite called with (lr := fun r => calc_locals a b n h hn e (snd r));
        [|unfold calc_locals; hev|apply name_plain|apply (CF (Some (Some c)) false)|intros r; reflexivity].
      rewrite bind_assoc. apply bind_ext. intros r s1 _. rewrite den_return_int.
      rewrite (plain_leave _ _ 5) by apply calc_eq. rewrite calc_outs. reflexivity.
    - rewrite den_skip, den_return_int, (plain_leave _ _ 5) by apply calc_eq. rewrite calc_outs. reflexivity.
  Qed.

  Ltac fails_to Err := rewrite den_seq; erewrite erred by reflexivity; rewrite bind_assoc; apply bind_ext; intros [] ? _; rewrite den_goto; apply Err.

  Lemma calculate_text : forall b n h hn e s,
    run_fun E txt call fuel (calc_def a (unrolled E)) [v_bytes b; VU RSz n; v_bytes h; VU RSz hn; v_error e] s =
    (z <- calculate_with F a b n h hn e ;; ret (VS R32 z, [None; None; None; None; None])) s.
  Proof.
    intros b n h hn e s.
    assert (En : forall R, (forall kl ke, kl = leave E (calc_def a (unrolled E)) ->
      ke = (fun fl l => match fl with
                        | FReturn v => kl fl l
                        | FBreak => undef
                        | _ => dn (f_error (calc_def a (unrolled E))) l kl
                        end) ->
       dn (f_body (calc_def a (unrolled E))) (calc_locals a b n h hn e None) ke s = R) ->
      run_fun E txt call fuel (calc_def a (unrolled E)) [v_bytes b; VU RSz n; v_bytes h; VU RSz hn; v_error e] s = R).
    { intros R H. clear CI CF CU CZ. destruct a; (eapply enter_run; [tpar | reflexivity | tloc | exact H]). }
    apply En. intros kl ke Hkl Hke. clear En. destruct (calc_eq a (unrolled E)) as (B1 & B2 & B3). rewrite B1, B2 in *.
    assert (Err : forall c s, ke FError (calc_locals a b n h hn e c) s = (z <- calculate_on_error_with F c ;; ret (VS R32 z, [None; None; None; None; None])) s).
    { intros c s'. rewrite Hke, Hkl. apply calc_on_error_with. }
    assert (Ret : forall z c s, ke (FReturn (VS R32 z)) (calc_locals a b n h hn e c) s = Done (VS R32 z, [None; None; None; None; None]) s).
    { intros z c s'. rewrite Hke, Hkl, (plain_leave _ _ 5) by exact B3. now rewrite calc_outs. }
    clear Hkl Hke B1 B2 B3. unfold calc_text, calculate_with. rewrite den_seq, bind_assoc.
    erewrite checked with (lr := fun r => calc_locals a b n h hn e (snd r));
      [|unfold calc_locals; hev|apply name_plain|apply (CI (Some None) e)|intros r; reflexivity].
    apply bind_ext. intros r s1 _. cbv zeta. destruct (fst r =? 1)%Z; cbn [negb]; [|fails_to Err].
    rewrite den_skip, den_seq, bind_assoc.
    erewrite checked with (lr := fun _ => calc_locals a b n h hn e (snd r)) (g := fun r => r);
      [|unfold calc_locals; hev|apply name_plain|apply (CU (snd r) b (VU RSz n) n e); reflexivity|intros r0; reflexivity].
    apply bind_ext. intros r0 s2 _. destruct (r0 =? 1)%Z; cbn [negb]; [|fails_to Err].
    rewrite den_skip, den_seq, bind_assoc.
    erewrite checked with (lr := fun _ => calc_locals a b n h hn e (snd r)) (g := fun r => r);
      [|unfold calc_locals; hev|apply name_plain|apply (CZ (snd r) h (VU RSz hn) hn e); reflexivity|intros r1; reflexivity].
    apply bind_ext. intros r1 s3 _. destruct (r1 =? 1)%Z; cbn [negb]; [|fails_to Err].
    rewrite den_skip, den_seq, bind_assoc.
    erewrite checked with (lr := fun r => calc_locals a b n h hn e (snd r));
      [|unfold calc_locals; hev|apply name_plain|apply (CF (Some (snd r)) e)|intros r2; reflexivity].
    apply bind_ext. intros r2 s4 _. destruct (fst r2 =? 1)%Z; cbn [negb]; [|fails_to Err].
    rewrite den_skip, den_return_int. apply Ret.
  Qed.

  (* ------------------------------------------------------------- the functions that pass on their arguments *)
  Lemma wrap_with : forall def n f es c k e l (B : Type) (m : M B) (g : B -> Z) outs lr vs kl ke s,
    plain def n -> error_of "LIBCERROR_ERROR_DOMAIN_RUNTIME" c = Some k ->
    evs E txt call es l s = Done (vs, l) s -> is_external f = false ->
    call f vs s = (r <- m ;; ret (VS R32 (g r), outs r)) s ->
    (forall r, copy_out es (outs r) l = Some (lr r)) -> (forall r, lget (lr r) "error" = Some (v_error e)) ->
    kl = leave E def ->
    ke = (fun fl l => match fl with
                      | FReturn v => kl fl l
                      | FBreak => undef
                      | _ => dn (f_error def) l kl
                      end) ->
    dn (wrap_text f es c) l ke s =
    (r <- m ;; z <- (if (g r =? 1)%Z then ret 1%Z else fail e k) ;; ret (VS R32 z, outs_of n (lr r))) s.
  Proof.
    intros def n f es c k e l B m g outs lr vs kl ke s Pl Hc Hv Hx Hf Ho He Hkl Hke. unfold wrap_text.
    rewrite den_seq. erewrite checked by eassumption. apply bind_ext. intros r s1 _.
    destruct (g r =? 1)%Z; cbn [negb].
    - rewrite den_skip. rewrite den_return_int, Hke, Hkl. rewrite (plain_leave _ _ n) by exact Pl. reflexivity.
    - rewrite den_seq. erewrite erred by (exact Hc || apply He). unfold fail. rewrite bind_assoc. apply bind_ext. intros [] s2 _.
      rewrite den_return_int, Hke, Hkl. rewrite (plain_leave _ _ n) by exact Pl. reflexivity.
  Qed.

  Lemma initialize_text : forall c e s,
    run_fun E txt call fuel (initialize_def a (unrolled E)) [v_place a c; v_error e] s =
    (r <- hash_initialize_with F c e ;; ret (VS R32 (fst r), [left_at a c (snd r); None])) s.
  Proof.
    intros c e s.
    assert (En : forall R, (forall kl ke, kl = leave E (initialize_def a (unrolled E)) ->
      ke = (fun fl l => match fl with
                        | FReturn v => kl fl l
                        | FBreak => undef
                        | _ => dn (f_error (initialize_def a (unrolled E))) l kl
                        end) ->
       dn (f_body (initialize_def a (unrolled E))) (place_locals a c e) ke s = R) ->
      run_fun E txt call fuel (initialize_def a (unrolled E)) [v_place a c; v_error e] s = R).
    { intros R H. clear CI CF CU CZ. destruct a; (eapply enter_run; [tpar | reflexivity | tloc | exact H]). }
    apply En. intros kl ke Hkl Hke. rewrite (proj1 (wrap_bodies a (unrolled E))).
    erewrite (wrap_with (initialize_def a (unrolled E)) 2) with (e := e);
      [ | apply wrap_plain | reflexivity | unfold place_locals; hev | apply name_plain | apply CI
        | intros r; apply place_after | intros r; reflexivity | exact Hkl | exact Hke ].
    unfold hash_initialize_with. rewrite bind_assoc. apply bind_ext. intros r s1 _.
    destruct (Z.eqb_spec (fst r) 1) as [H1|H1].
    - rewrite !bind_ret, H1, place_outs. reflexivity.
    - rewrite !bind_assoc. apply bind_ext. intros z s2 _. rewrite bind_ret, place_outs. reflexivity.
  Qed.

  Lemma free_text : forall c e s,
    run_fun E txt call fuel (free_def a (unrolled E)) [v_place a c; v_error e] s =
    (r <- hash_free_with F c e ;; ret (VS R32 (fst r), [left_at a c (snd r); None])) s.
  Proof.
    intros c e s.
    assert (En : forall R, (forall kl ke, kl = leave E (free_def a (unrolled E)) ->
      ke = (fun fl l => match fl with
                        | FReturn v => kl fl l
                        | FBreak => undef
                        | _ => dn (f_error (free_def a (unrolled E))) l kl
                        end) ->
       dn (f_body (free_def a (unrolled E))) (place_locals a c e) ke s = R) ->
      run_fun E txt call fuel (free_def a (unrolled E)) [v_place a c; v_error e] s = R).
    { intros R H. clear CI CF CU CZ. destruct a; (eapply enter_run; [tpar | reflexivity | tloc | exact H]). }
    apply En. intros kl ke Hkl Hke. rewrite (proj1 (proj2 (wrap_bodies a (unrolled E)))).
    erewrite (wrap_with (free_def a (unrolled E)) 2) with (e := e);
      [ | apply wrap_plain | reflexivity | unfold place_locals; hev | apply name_plain | apply CF
        | intros r; apply place_after | intros r; reflexivity | exact Hkl | exact Hke ].
    unfold hash_free_with. rewrite bind_assoc. apply bind_ext. intros r s1 _.
    destruct (Z.eqb_spec (fst r) 1) as [H1|H1].
    - rewrite !bind_ret, H1, place_outs. reflexivity.
    - rewrite !bind_assoc. apply bind_ext. intros z s2 _. rewrite bind_ret, place_outs. reflexivity.
  Qed.

  Lemma update_text : forall p b n e s,
    run_fun E txt call fuel (update_w_def a (unrolled E)) [v_ctx a p; v_bytes b; VU RSz n; v_error e] s =
    (r <- hash_update_with F p b n e ;; ret (VS R32 r, [None; None; None; None])) s.
  Proof.
    intros p b n e s.
    set (l0 := [("context", v_ctx a p); ("buffer", v_bytes b); ("size", VU RSz n); ("error", v_error e)]).
    assert (En : forall R, (forall kl ke, kl = leave E (update_w_def a (unrolled E)) ->
      ke = (fun fl l => match fl with
                        | FReturn v => kl fl l
                        | FBreak => undef
                        | _ => dn (f_error (update_w_def a (unrolled E))) l kl
                        end) ->
       dn (f_body (update_w_def a (unrolled E))) l0 ke s = R) ->
      run_fun E txt call fuel (update_w_def a (unrolled E)) [v_ctx a p; v_bytes b; VU RSz n; v_error e] s = R).
    { intros R H. clear CI CF CU CZ. destruct a; (eapply enter_run; [tpar | reflexivity | tloc | exact H]). }
    apply En. intros kl ke Hkl Hke. rewrite (proj1 (proj2 (proj2 (wrap_bodies a (unrolled E))))).
    erewrite (wrap_with (update_w_def a (unrolled E)) 4) with (e := e) (lr := fun _ => l0) (g := fun r => r);
      [ | apply wrap_plain | reflexivity | unfold l0; hev | apply name_plain | apply (CU p b (VU RSz n) n e); reflexivity
        | intros r; reflexivity | intros r; reflexivity | exact Hkl | exact Hke ].
    unfold hash_update_with. rewrite bind_assoc. apply bind_ext. intros r s1 _. apply bind_ext. intros z s2 _.
    unfold l0. rewrite plain_outs. reflexivity.
  Qed.

  Lemma finalize_text : forall p h n e s,
    run_fun E txt call fuel (finalize_w_def a (unrolled E)) [v_ctx a p; v_bytes h; VU RSz n; v_error e] s =
    (r <- hash_finalize_with F p h n e ;; ret (VS R32 r, [None; None; None; None])) s.
  Proof.
    intros p b n e s.
    set (l0 := [("context", v_ctx a p); ("hash", v_bytes b); ("hash_size", VU RSz n); ("error", v_error e)]).
    assert (En : forall R, (forall kl ke, kl = leave E (finalize_w_def a (unrolled E)) ->
      ke = (fun fl l => match fl with
                        | FReturn v => kl fl l
                        | FBreak => undef
                        | _ => dn (f_error (finalize_w_def a (unrolled E))) l kl
                        end) ->
       dn (f_body (finalize_w_def a (unrolled E))) l0 ke s = R) ->
      run_fun E txt call fuel (finalize_w_def a (unrolled E)) [v_ctx a p; v_bytes b; VU RSz n; v_error e] s = R).
    { intros R H. clear CI CF CU CZ. destruct a; (eapply enter_run; [tpar | reflexivity | tloc | exact H]). }
    apply En. intros kl ke Hkl Hke. rewrite (proj2 (proj2 (proj2 (wrap_bodies a (unrolled E))))).
    erewrite (wrap_with (finalize_w_def a (unrolled E)) 4) with (e := e) (lr := fun _ => l0) (g := fun r => r);
      [ | apply wrap_plain | reflexivity | unfold l0; hev | apply name_plain | apply (CZ p b (VU RSz n) n e); reflexivity
        | intros r; reflexivity | intros r; reflexivity | exact Hkl | exact Hke ].
    unfold hash_finalize_with. rewrite bind_assoc. apply bind_ext. intros r s1 _. apply bind_ext. intros z s2 _.
    unfold l0. rewrite plain_outs. reflexivity.
  Qed.

  (* ------------------------------------------------------------- calculate_hmac *)
  (* free leaves no context, and after every call byte arrays hold bytes *)
  Hypothesis FN : forall c e s r s', f_free F (Some c) e s = Done r s' -> snd r = None.
  Hypothesis WI : forall e s r s', wf_state s -> f_initialize F (Some None) e s = Done r s' -> wf_state s'.
  Hypothesis WF : forall c e s r s', wf_state s -> f_free F (Some c) e s = Done r s' -> wf_state s'.
  Hypothesis WU : forall p q m e s r s', wf_state s -> f_update F p q m e s = Done r s' -> wf_state s'.
  Hypothesis WZ : forall p q m e s r s', wf_state s -> f_finalize F p q m e s = Done r s' -> wf_state s'.
  Hypothesis Fuel : (128 <= fuel)%nat.

  Section Hmac.
  Variables (key : option ptr) (kn : N) (b : option ptr) (n : N) (h : option ptr) (hn : N) (e : bool) (kh : nat).
  Notation hs := (a_hs (alg_of a)).
  Notation bs := (hmac_block_size a).
  Notation hl := (TextHmac.hl a key kn b n h hn e kh).
  Notation ev := (eval E txt call).
  Notation hmac_end := (TextHmac.hmac_end kh).

  Ltac failing := rewrite den_seq; erewrite erred by reflexivity; rewrite ?bind_assoc; apply bind_ext; intros [] ? _; rewrite den_goto; reflexivity.

  Lemma pass_with : forall pad pp xb xn q v m kd ip op i rest (K : flow -> locals -> M (val * list (option val))) R s,
    (forall c s, ev (EVar pad) (hl c kd ip op i) s = Done (VBytes (pp, 0), hl c kd ip op i) s) ->
    (forall c s, ev xb (hl c kd ip op i) s = Done (v_bytes q, hl c kd ip op i) s) ->
    (forall c s, ev xn (hl c kd ip op i) s = Done (v, hl c kd ip op i) s) ->
    to_unsigned E RSz v = Some m -> wf_state s ->
    (forall s1, wf_state s1 -> dn rest (hl None kd ip op i) K s1 = R s1) ->
    dn (pass_text a pad xb xn rest) (hl None kd ip op i) K s =
    (r <- hmac_pass_with F a pp q m h hn e ;; match r with Some c => K FError (hl c kd ip op i) | None => R end) s.
  Proof.
    intros pad pp xb xn q v m kd ip op i rest K R s X1 X2 X3 Hv W HR. unfold pass_text, hmac_pass_with. cbv zeta.
    rewrite den_seq, bind_assoc.
    erewrite checked with (lr := fun r => hl (snd r) kd ip op i);
      [|unfold TextHmac.hl; hv|apply name_plain|apply (CI (Some None) e)|intros r; reflexivity].
    apply bind_ext. intros r s1 Hr. pose proof (WI _ _ _ _ W Hr) as W1. clear Hr.
    destruct (fst r =? 1)%Z; cbn [negb]; [|failing].
    rewrite den_skip, den_seq, bind_assoc.
    erewrite checked with (lr := fun _ => hl (snd r) kd ip op i) (g := fun r => r);
      [|eapply evs_cons; [unfold TextHmac.hl; hv|eapply evs_cons; [apply X1|unfold TextHmac.hl; hv]]|apply name_plain
       |apply (CU (snd r) (Some (pp, 0)) (VU RSz bs) bs e); reflexivity|intros r0; reflexivity].
    apply bind_ext. intros r0 s2 Hr. pose proof (WU _ _ _ _ _ _ _ W1 Hr) as W2. clear Hr.
    destruct (r0 =? 1)%Z; cbn [negb]; [|failing].
    rewrite den_skip, den_seq, bind_assoc.
    erewrite checked with (lr := fun _ => hl (snd r) kd ip op i) (g := fun r => r);
      [|eapply evs_cons; [unfold TextHmac.hl; hv|eapply evs_cons; [apply X2|eapply evs_cons; [apply X3|unfold TextHmac.hl; hv]]]|apply name_plain
       |apply (CU (snd r) q v m e); exact Hv|intros r1; cbv beta; rewrite !copy_none; reflexivity].
    apply bind_ext. intros r1 s3 Hr. pose proof (WU _ _ _ _ _ _ _ W2 Hr) as W3. clear Hr.
    destruct (r1 =? 1)%Z; cbn [negb]; [|failing].
    rewrite den_skip, den_seq, bind_assoc.
    erewrite checked with (lr := fun _ => hl (snd r) kd ip op i) (g := fun r => r);
      [|unfold TextHmac.hl; hv|apply name_plain|apply (CZ (snd r) h (VU RSz hn) hn e); reflexivity|intros r2; reflexivity].
    apply bind_ext. intros r2 s4 Hr. pose proof (WZ _ _ _ _ _ _ _ W3 Hr) as W4. clear Hr.
    destruct (r2 =? 1)%Z; cbn [negb]; [|failing].
    rewrite den_skip, den_seq, bind_assoc.
    erewrite checked with (lr := fun r => hl (snd r) kd ip op i);
      [|unfold TextHmac.hl; hv|apply name_plain|apply (CF (Some (snd r)) e)|intros r3; reflexivity].
    apply bind_ext. intros r3 s5 Hr. pose proof (WF _ _ _ _ _ W4 Hr) as W5. pose proof (FN _ _ _ _ _ Hr) as N5. clear Hr.
    destruct (fst r3 =? 1)%Z; cbn [negb]; [|failing].
    rewrite N5, den_skip, bind_ret. now apply HR.
  Qed.

  Lemma key_with : forall kp kd ip op i (K : flow -> locals -> M (val * list (option val))) R s, key = Some kp -> wf_state s ->
    (forall s1, wf_state s1 -> K FNext (hl None (Some kd) ip op i) s1 = R s1) ->
    dn (key_text a) (hl None (Some kd) ip op i) K s =
    (r <- hmac_key_data_with F a kh kd kp kn e ;; match r with Some c => K FError (hl c (Some kd) ip op i) | None => R end) s.
  Proof.
    intros kp kd ip op i K R s Hkey W HR.
    assert (Ek : forall c s, ev (EVar "key") (hl c (Some kd) ip op i) s = Done (VBytes kp, hl c (Some kd) ip op i) s).
    { intros c s0. unfold TextHmac.hl. rewrite Hkey. reflexivity. }
    assert (Ea : forall s, ev (EAddr (EIndex (EVar "key_data") (EInt (hs_of a)))) (hl None (Some kd) ip op i) s =
                           Done (VBytes (kd, hs), hl None (Some kd) ip op i) s).
    { intros s0. cbn [eval TextHmac.hl lget String.eqb Ascii.eqb Bool.eqb]. unfold bind, ret. cbn [fst snd v_mem v_bytes option_map]. rewrite amount_hs. reflexivity. }
    destruct (small_sizes a) as (B1 & B2 & B3 & B4). unfold key_text, hmac_key_data_with. cbv zeta.
    rewrite (decided _ _ _ _ _ _ (kn <=? bs)) by reflexivity. destruct (N.leb_spec kn bs) as [Hle|Hgt].
    - rewrite den_seq, bind_assoc.
      erewrite copied; [|eapply evs_cons; [unfold TextHmac.hl; hv|eapply evs_cons; [apply Ek|unfold TextHmac.hl; hv]]|reflexivity].
      apply bind_ext. intros [] s1 Hr. destruct (mcopy_keeps _ _ _ _ _ W Hr) as (W1 & _). clear Hr. rewrite bind_assoc.
      erewrite filled; [|eapply evs_cons; [reflexivity|eapply evs_cons; [reflexivity|eapply evs_cons; [|apply evs_nil]]]|reflexivity].
      2: { eapply ev_bin; [unfold TextHmac.hl; hv|unfold TextHmac.hl; hv|]. cbn [binary usual promote rank_max arith]. rewrite usub_size; [reflexivity|exact Hle|now apply size_32]. }
      apply bind_ext. intros [] s2 Hr. apply mset_keeps in Hr as (W2 & _); [|exact W1|reflexivity].
      rewrite bind_ret. now apply HR.
    - rewrite den_seq, bind_assoc.
      erewrite checked with (lr := fun r => hl (snd r) (Some kd) ip op i);
        [|unfold TextHmac.hl; hv|apply name_plain|apply (CI (Some None) e)|intros r; reflexivity].
      apply bind_ext. intros r s1 Hr. pose proof (WI _ _ _ _ W Hr) as W1. clear Hr.
      destruct (fst r =? 1)%Z; cbn [negb]; [|failing].
      rewrite den_skip, den_seq, bind_assoc.
      erewrite checked with (lr := fun _ => hl (snd r) (Some kd) ip op i) (g := fun r => r);
        [|eapply evs_cons; [unfold TextHmac.hl; hv|eapply evs_cons; [apply Ek|unfold TextHmac.hl; hv]]|apply name_plain
         |apply (CU (snd r) (Some kp) (VU RSz kn) kn e); reflexivity|intros r0; reflexivity].
      apply bind_ext. intros r0 s2 Hr. pose proof (WU _ _ _ _ _ _ _ W1 Hr) as W2. clear Hr.
      destruct (r0 =? 1)%Z; cbn [negb]; [|failing].
      rewrite den_skip, den_seq, bind_assoc.
      erewrite checked with (lr := fun _ => hl (snd r) (Some kd) ip op i) (g := fun r => r);
        [|unfold TextHmac.hl; hv|apply name_plain
         |apply (CZ (snd r) (Some (kh, 0)) (VS R32 (hs_of a)) hs e); apply lit_size, small_sizes|intros r1; reflexivity].
      apply bind_ext. intros r1 s3 Hr. pose proof (WZ _ _ _ _ _ _ _ W2 Hr) as W3. clear Hr.
      destruct (r1 =? 1)%Z; cbn [negb]; [|failing].
      rewrite den_skip, den_seq, bind_assoc.
      erewrite checked with (lr := fun r => hl (snd r) (Some kd) ip op i);
        [|unfold TextHmac.hl; hv|apply name_plain|apply (CF (Some (snd r)) e)|intros r2; reflexivity].
      apply bind_ext. intros r2 s4 Hr. pose proof (WF _ _ _ _ _ W3 Hr) as W4. pose proof (FN _ _ _ _ _ Hr) as N4. clear Hr.
      destruct (fst r2 =? 1)%Z; cbn [negb]; [|failing].
      rewrite N4, den_skip, den_seq, bind_assoc.
      rewrite (decided _ _ _ _ _ _ (hs <? bs)).
      2: { eapply ev_bin; [unfold TextHmac.hl; hv|unfold TextHmac.hl; hv|]. apply over_literal. }
      replace (hs <? bs) with true by (symmetry; now apply N.ltb_lt).
      erewrite filled; [|eapply evs_cons; [|eapply evs_cons; [reflexivity|eapply evs_cons; [|apply evs_nil]]]|reflexivity].
      2: { exact (Ea s4). }
      2: { eapply ev_bin; [unfold TextHmac.hl; hv|unfold TextHmac.hl; hv|]. apply minus_literal; [now apply N.lt_le_incl|now apply size_32]. }
      apply bind_ext. intros [] s5 Hr. apply mset_keeps in Hr as (W5 & _); [|exact W4|reflexivity]. rewrite bind_assoc.
      erewrite copied; [|unfold TextHmac.hl; hv|apply lit_size, small_sizes].
      apply bind_ext. intros [] s6 Hr. destruct (mcopy_keeps _ _ _ _ _ W5 Hr) as (W6 & _). clear Hr.
      rewrite bind_ret. now apply HR.
  Qed.

  Lemma discard_with : forall x q c kd ip op i (K : flow -> locals -> M (val * list (option val))) s,
    lget (hl c kd ip op i) x = Some (v_mem q) ->
    (forall s, ev (EVar x) (hl c kd ip op i) s = Done (v_mem q, hl c kd ip op i) s) ->
    dn (discard x) (hl c kd ip op i) K s = (clear_and_free a q ;;; K FNext (hl c kd ip op i)) s.
  Proof.
    intros x q c kd ip op i K s Hx Hev. unfold discard. erewrite given; [|exact Hx|apply null_mem]. destruct q as [q|]; cbn [clear_and_free].
    - rewrite den_seq, bind_assoc. erewrite filled_plain; [|eapply evs_cons; [apply Hev|unfold TextHmac.hl; hv]|reflexivity].
      apply bind_ext. intros [] s1 _. erewrite freed; [reflexivity|]. eapply evs_cons; [apply Hev|apply evs_nil].
    - rewrite den_skip. reflexivity.
  Qed.

  Lemma error_with : forall c kd ip op i s,
    dn (hmac_error a) (hl c kd ip op i) (leave E (hmac_def a (unrolled E))) s = (z <- hmac_on_error_with F a c op ip kd ;; hmac_end z) s.
  Proof.
    intros c kd ip op i s. unfold hmac_error, hmac_on_error_with.
    assert (Rest : forall c s, dn (discard "outer_padding" ;- discard "inner_padding" ;- discard "key_data" ;- SReturn (EInt (-1))) (hl c kd ip op i)
        (leave E (hmac_def a (unrolled E))) s =
      (z <- (clear_and_free a op ;;; clear_and_free a ip ;;; clear_and_free a kd ;;; ret (-1)%Z) ;; hmac_end z) s).
    { intros c0 s0. rewrite den_seq, bind_assoc. rewrite (discard_with _ op) by (intros; unfold TextHmac.hl; hv || reflexivity).
      apply bind_ext. intros [] s1 _. rewrite den_seq, bind_assoc. rewrite (discard_with _ ip) by (intros; unfold TextHmac.hl; hv || reflexivity).
      apply bind_ext. intros [] s2 _. rewrite den_seq, bind_assoc. rewrite (discard_with _ kd) by (intros; unfold TextHmac.hl; hv || reflexivity).
      apply bind_ext. intros [] s3 _. rewrite den_return_int, bind_ret. apply hmac_leave. }
    rewrite den_seq, bind_assoc. erewrite given; [|unfold TextHmac.hl; bypair|apply null_ctx]. destruct c as [c|].
    - erewrite called with (lr := fun r => hl (snd r) kd ip op i);
        [|unfold TextHmac.hl; hv|apply name_plain|apply (CF (Some (Some c)) false)|intros r; reflexivity].
      rewrite bind_assoc. apply bind_ext. intros r s1 _. rewrite bind_ret. apply Rest.
    - rewrite den_skip, bind_ret. apply Rest.
  Qed.

  Lemma allot_with : forall x v c kd ip op i (lr : option nat -> locals) (K : flow -> locals -> M (val * list (option val))) s,
    lget (hl c kd ip op i) x = Some (v_mem v) -> (forall q, lset (hl c kd ip op i) x (v_mem q) = Some (lr q)) ->
    dn (allot x) (hl c kd ip op i) K s = (q <- allocate_bytes E bs ;; K FNext (lr q)) s.
  Proof.
    intros x v c kd ip op i lr K s H1 H2. eapply allotted; [|exact H1|exact H2]. eapply evs_cons; [|apply evs_nil].
    eapply ev_bin; [reflexivity|unfold TextHmac.hl; hv|]. cbn [binary usual promote rank_max arith]. rewrite N.mul_1_l, N.mod_small; [reflexivity|].
    rewrite bits_size. apply size_32, small_sizes.
  Qed.

  Lemma end_with : forall kd ip op i (ke : flow -> locals -> M (val * list (option val))) s,
    (forall z c kd ip op i s, ke (FReturn (VS R32 z)) (hl c kd ip op i) s = hmac_end z s) ->
    dn end_text (hl None (Some kd) (Some ip) (Some op) i) ke s =
    (z <- (mset (op, 0) 0 bs ;;; mfree op ;;; mset (ip, 0) 0 bs ;;; mfree ip ;;; mset (kd, 0) 0 bs ;;; mfree kd ;;; ret 1%Z) ;; hmac_end z) s.
  Proof.
    intros kd ip op i ke s Ret. unfold end_text.
    rewrite den_seq, bind_assoc. erewrite filled; [|unfold TextHmac.hl; hv|reflexivity]. apply bind_ext. intros [] s1 _.
    rewrite den_seq, bind_assoc. erewrite freed; [|unfold TextHmac.hl; hv]. apply bind_ext. intros [] s2 _.
    rewrite den_seq. rewrite (emptied _ _ _ _ _ _ _ (Some op) (hl None (Some kd) (Some ip) None i)) by reflexivity.
    rewrite den_seq, bind_assoc. erewrite filled; [|unfold TextHmac.hl; hv|reflexivity]. apply bind_ext. intros [] s3 _.
    rewrite den_seq, bind_assoc. erewrite freed; [|unfold TextHmac.hl; hv]. apply bind_ext. intros [] s4 _.
    rewrite den_seq. rewrite (emptied _ _ _ _ _ _ _ (Some ip) (hl None (Some kd) None None i)) by reflexivity.
    rewrite den_seq, bind_assoc. erewrite filled; [|unfold TextHmac.hl; hv|reflexivity]. apply bind_ext. intros [] s5 _.
    rewrite den_seq, bind_assoc. erewrite freed; [|unfold TextHmac.hl; hv]. apply bind_ext. intros [] s6 _.
    rewrite den_seq. rewrite (emptied _ _ _ _ _ _ _ (Some kd) (hl None None None None i)) by reflexivity.
    rewrite den_return_int, bind_ret. apply Ret.
  Qed.

  Lemma limit_with : forall l s, ev (ECast false RSz ESsizeMax) l s = Done (VU RSz (ssize_max E), l) s.
  Proof. intros l s. cbn [eval]. unfold bind, ret, ssize_max. cbn [fst snd convert to_unsigned option_map bits]. destruct (plat64 E); reflexivity. Qed.
  Lemma hs_with : forall l s, ev (ECast false RSz (EInt (hs_of a))) l s = Done (VU RSz hs, l) s.
  Proof. intros l s. cbn [eval]. unfold bind, ret. cbn [fst snd convert]. unfold hs_of. rewrite lit_size by apply small_sizes. reflexivity. Qed.

  Ltac refused Ret := rewrite den_seq; erewrite erred by reflexivity; unfold fail; rewrite bind_assoc; apply bind_ext; intros [] ? _; rewrite den_return_int, bind_ret; apply Ret.
  Ltac lacking Err := rewrite den_seq; erewrite erred by reflexivity; rewrite bind_assoc; apply bind_ext; intros [] ? _; rewrite den_goto; apply Err.

  Lemma body_with : forall (ke : flow -> locals -> M (val * list (option val))) s,
    (forall z c kd ip op i s, ke (FReturn (VS R32 z)) (hl c kd ip op i) s = hmac_end z s) ->
    (forall c kd ip op i s, ke FError (hl c kd ip op i) s = (z <- hmac_on_error_with F a c op ip kd ;; hmac_end z) s) ->
    wf_state s ->
    dn (hmac_text a) (hl None None None None 0) ke s = (z <- calculate_hmac_body_with E F a kh key kn b n h hn e ;; hmac_end z) s.
  Proof.
    intros ke s Ret Err W. unfold hmac_text, calculate_hmac_body_with. cbv zeta. destruct (small_sizes a) as (B1 & B2 & B3 & B4).
    rewrite den_seq. erewrite missing; [|unfold TextHmac.hl; bypair|apply null_bytes].
    destruct key as [kp|] eqn:Hkey; rewrite <- Hkey in Ret, Err |- *; [|refused Ret].
    rewrite den_skip, den_seq. rewrite (decided _ _ _ _ _ _ (ssize_max E <? kn)).
    2: { eapply ev_bin; [unfold TextHmac.hl; hv|apply limit_with|reflexivity]. }
    destruct (ssize_max E <? kn); [refused Ret|].
    rewrite den_skip, den_seq. rewrite (decided _ _ _ _ _ _ (hn <? hs)).
    2: { eapply ev_bin; [unfold TextHmac.hl; hv|apply hs_with|reflexivity]. }
    destruct (hn <? hs); [refused Ret|].
    rewrite den_skip, den_seq, bind_assoc.
    rewrite (allot_with _ None _ _ _ _ _ (fun q => hl None q None None 0)) by (intros; reflexivity).
    apply bind_ext. intros okd s1 Hr. destruct (allocate_keeps _ _ _ _ _ W Hr) as (W1 & _). clear Hr.
    rewrite den_seq. erewrite missing; [|unfold TextHmac.hl; bypair|apply null_mem].
    destruct okd as [kd|]; [|lacking Err].
    rewrite den_skip, den_seq, bind_assoc.
    eapply eq_trans; [eapply (key_with kp kd); [exact Hkey|exact W1|]|apply bind_ext; intros [c|] s2 _; [apply Err|reflexivity]].
    intros s2 W2. cbv beta iota. rewrite den_seq, bind_assoc.
    rewrite (allot_with _ None _ _ _ _ _ (fun q => hl None (Some kd) q None 0)) by (intros; reflexivity).
    apply bind_ext. intros oip s3 Hr. destruct (allocate_keeps _ _ _ _ _ W2 Hr) as (W3 & _). clear Hr.
    rewrite den_seq. erewrite missing; [|unfold TextHmac.hl; bypair|apply null_mem].
    destruct oip as [ip|]; [|lacking Err].
    rewrite den_skip, den_seq, bind_assoc. erewrite filled; [|unfold TextHmac.hl; hv|reflexivity].
    apply bind_ext. intros [] s4 Hr. apply mset_keeps in Hr as (W4 & _); [|exact W3|reflexivity].
    rewrite den_seq, bind_assoc.
    rewrite (allot_with _ None _ _ _ _ _ (fun q => hl None (Some kd) (Some ip) q 0)) by (intros; reflexivity).
    apply bind_ext. intros oop s5 Hr. destruct (allocate_keeps _ _ _ _ _ W4 Hr) as (W5 & _). clear Hr.
    rewrite den_seq. erewrite missing; [|unfold TextHmac.hl; bypair|apply null_mem].
    destruct oop as [op|]; [|lacking Err].
    rewrite den_skip, den_seq, bind_assoc. erewrite filled; [|unfold TextHmac.hl; hv|reflexivity].
    apply bind_ext. intros [] s6 Hr. apply mset_keeps in Hr as (W6 & _); [|exact W5|reflexivity].
    rewrite den_seq, bind_assoc.
    apply (xor_run _ _ _ _ _ ip op kd bs (hl None (Some kd) (Some ip) (Some op)) B2); try (intros; reflexivity); [exact W6|lia|].
    intros s7 (W7 & _). cbv beta iota. rewrite bind_assoc.
    eapply eq_trans; [eapply (pass_with "inner_padding" ip (EVar "buffer") (EVar "size") b (VU RSz n) n);
                        [intros; reflexivity|intros; unfold TextHmac.hl; hv|intros; reflexivity|reflexivity|exact W7|]
                     |apply bind_ext; intros [c|] s8 _; [apply Err|reflexivity]].
    intros s8 W8. cbv beta iota. rewrite bind_assoc.
    eapply eq_trans; [eapply (pass_with "outer_padding" op (EVar "hmac") (EInt (hs_of a)) h (VS R32 (hs_of a)) hs);
                        [intros; reflexivity|intros; unfold TextHmac.hl; hv|intros; reflexivity|apply lit_size, small_sizes|exact W8|]
                     |apply bind_ext; intros [c|] s9 _; [apply Err|reflexivity]].
    intros s9 W9. cbv beta iota. apply end_with. exact Ret.
  Qed.
  End Hmac.

  Lemma calculate_hmac_text : forall key kn b n h hn e s, wf_state s ->
    run_fun E txt call fuel (hmac_def a (unrolled E)) [v_bytes key; VU RSz kn; v_bytes b; VU RSz n; v_bytes h; VU RSz hn; v_error e] s =
    (z <- calculate_hmac_with E F a key kn b n h hn e ;; ret (VS R32 z, [None; None; None; None; None; None; None])) s.
  Proof.
    intros key kn b n h hn e s W.
    set (kh := List.length (mem s)).
    set (s1 := set_mem (mem s ++ [mk_cell true Stack (OBytes (junk_bytes E kh (a_hs (alg_of a))))]) s).
    assert (En : forall R, (forall kl ke, kl = leave E (hmac_def a (unrolled E)) ->
      ke = (fun fl l => match fl with
                        | FReturn v => kl fl l
                        | FBreak => undef
                        | _ => dn (f_error (hmac_def a (unrolled E))) l kl
                        end) ->
       dn (f_body (hmac_def a (unrolled E))) (TextHmac.hl a key kn b n h hn e kh None None None None 0) ke s1 = R) ->
      run_fun E txt call fuel (hmac_def a (unrolled E)) [v_bytes key; VU RSz kn; v_bytes b; VU RSz n; v_bytes h; VU RSz hn; v_error e] s = R).
    { intros R H. clear CI CF CU CZ FN WI WF WU WZ. destruct a; (eapply enter_run; [tpar | reflexivity | tloc | exact H]). }
    apply En. intros kl ke Hkl Hke. clear En. destruct (hmac_eq a (unrolled E)) as (B1 & B2 & _). rewrite B1, B2 in *.
    rewrite (body_with key kn b n h hn e kh).
    - unfold calculate_hmac_with. rewrite bind_assoc. unfold push_local at 1. unfold bind at 2. cbv beta. fold kh. fold s1.
      rewrite bind_assoc. apply bind_ext. intros z s2 _. unfold hmac_end. rewrite bind_assoc. apply bind_ext. intros [] s3 _. reflexivity.
    - intros z c kd ip op i s2. rewrite Hke, Hkl. apply hmac_leave.
    - intros c kd ip op i s2. rewrite Hke, Hkl. apply error_with.
    - apply wf_cells. unfold s1. cbn [mem set_mem]. apply Forall_app. split; [now apply wf_cells|]. constructor; [|constructor]. intros _. cbn [content obj_ok].
      apply Forall_forall. intros x Hx. unfold junk_bytes in Hx. apply in_map_iff in Hx as (j & <- & _). apply N.mod_lt. discriminate.
  Qed.
End Calls.
