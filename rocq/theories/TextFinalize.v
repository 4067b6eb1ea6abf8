(* The text of libhmac_X_context_finalize does what Context.v says, given that the text of
   libhmac_X_context_transform does. *)
From Coq Require Import Arith NArith ZArith List Lia Bool String.
From Verif Require Import Words Spec Machine Context Hash CText TextMd5 TextSha1 TextSha224 TextSha256 TextSha512 TextAll.
From Verif Require Import Vocab MachineFacts TransformFacts ContextFacts DigestFacts HashFacts TextFacts TextContext TextUpdate TextLoops TextBytes.
Import ListNotations.
Open Scope string_scope.
Open Scope list_scope.
Open Scope N_scope.

Definition final_def (a : algid) (u : bool) : fundef :=
  match a with
  | MD5 => text_libhmac_md5_context_finalize u
  | SHA1 => text_libhmac_sha1_context_finalize u
  | SHA224 => text_libhmac_sha224_context_finalize u
  | SHA256 => text_libhmac_sha256_context_finalize u
  | SHA512 => text_libhmac_sha512_context_finalize u
  end.

Definition type_name (a : algid) : string :=
  match a with
  | MD5 => "libhmac_internal_md5_context_t"
  | SHA1 => "libhmac_internal_sha1_context_t"
  | SHA224 => "libhmac_internal_sha224_context_t"
  | SHA256 => "libhmac_internal_sha256_context_t"
  | SHA512 => "libhmac_internal_sha512_context_t"
  end.

Notation ic := (EVar "internal_context").
Notation fail_with d c :=
  (SSeq (SExpr (ECall "libcerror_error_set" [(EVar "error"); (EName d); (EName c)])) (SReturn (EInt (-1)))).

(* the part after the computation of the size of the last block or blocks *)
Definition final_text (a : algid) (u : bool) : stmt :=
  SIf (EBin OEq (ECall "memory_set" [(EAddr (EIndex (EField ic "block") (EField ic "block_offset"))); (EInt 0); (EBin OSub (EVar "block_size") (EField ic "block_offset"))]) ENull)
    (fail_with "LIBCERROR_ERROR_DOMAIN_MEMORY" "LIBCERROR_MEMORY_ERROR_SET_FAILED") SSkip ;-
  SAssign (EIndex (EField ic "block") (EField ic "block_offset")) (EInt 128) ;-
  SAssign (EVar "bit_size") (EBin OMul (EBin OAdd (EField ic "hash_count") (EField ic "block_offset")) (EInt 8)) ;-
  from_text (a_big (alg_of a)) 8 (EAddr (EIndex (EField ic "block") (EBin OSub (EVar "block_size") (EInt 8)))) (EVar "bit_size") ;-
  SAssign (EVar "process_count") (ECall (name_of a "context_transform") [ic; (EField ic "block"); (EVar "block_size"); (EVar "error")]) ;-
  SIf (EBin OEq (EVar "process_count") (EInt (-1)))
    (fail_with "LIBCERROR_ERROR_DOMAIN_RUNTIME" "LIBCERROR_RUNTIME_ERROR_SET_FAILED") SSkip ;-
  (if u then
     each (fun i => hash_text (EInt (Z.of_nat (i * wbytes a))) (EInt (Z.of_nat i)) (a_big (alg_of a)) (wbytes a)) (seq 0 (a_outw (alg_of a)))
   else
     SFor (SAssign (EVar "hash_values_index") (EInt 0)) (EBin OLt (EVar "hash_values_index") (EInt (Z.of_nat (a_outw (alg_of a)))))
          (SOp OAdd (EVar "hash_values_index") (EInt 1))
          (SSeq (hash_text (EVar "hash_index") (EVar "hash_values_index") (a_big (alg_of a)) (wbytes a))
                (SOp OAdd (EVar "hash_index") (ESize (N.of_nat (wbytes a)))))) ;-
  SIf (EBin OEq (ECall "memory_set" [ic; (EInt 0); (ESizeof (type_name a))]) ENull)
    (fail_with "LIBCERROR_ERROR_DOMAIN_MEMORY" "LIBCERROR_MEMORY_ERROR_SET_FAILED") SSkip ;-
  SReturn (EInt 1).

(* the checks of the size of the hash *)
Fixpoint checks_text (a : algid) (l : list final_check) (rest : stmt) : stmt :=
  match l with
  | [] => rest
  | CheckMax :: t =>
      SSeq (SIf (EBin OGt (EVar "hash_size") (ECast false RSz ESsizeMax))
              (fail_with "LIBCERROR_ERROR_DOMAIN_ARGUMENTS" "LIBCERROR_ARGUMENT_ERROR_VALUE_EXCEEDS_MAXIMUM") SSkip)
           (checks_text a t rest)
  | CheckMin :: t =>
      SSeq (SIf (EBin OLt (EVar "hash_size") (ECast false RSz (EInt (Z.of_N (a_hs (alg_of a))))))
              (fail_with "LIBCERROR_ERROR_DOMAIN_ARGUMENTS" "LIBCERROR_ARGUMENT_ERROR_VALUE_TOO_SMALL") SSkip)
           (checks_text a t rest)
  end.

Definition final_body (a : algid) (u : bool) : stmt :=
  SIf (EBin OEq (EVar "context") ENull)
    (fail_with "LIBCERROR_ERROR_DOMAIN_ARGUMENTS" "LIBCERROR_ARGUMENT_ERROR_INVALID_VALUE") SSkip ;-
  SAssign ic (EVar "context") ;-
  SIf (EBin OEq (EVar "hash") ENull)
    (fail_with "LIBCERROR_ERROR_DOMAIN_ARGUMENTS" "LIBCERROR_ARGUMENT_ERROR_INVALID_VALUE") SSkip ;-
  checks_text a (a_checks (alg_of a))
   (SAssign (EVar "number_of_blocks") (EInt 1) ;-
    SIf (EBin OGt (EField ic "block_offset") (EInt (Z.of_N (a_thr (alg_of a))))) (SOp OAdd (EVar "number_of_blocks") (EInt 1)) SSkip ;-
    SAssign (EVar "block_size") (EBin OMul (EVar "number_of_blocks") (EInt (Z.of_N (a_bs (alg_of a))))) ;-
    final_text a u).

Lemma final_body_eq : forall a u, f_body (final_def a u) = final_body a u.
Proof. intros [] []; reflexivity. Qed.

(* ------------------------------------------------------------- pieces *)

Lemma ext_set_block : forall E P a p i n l s c b s',
  load_ctx a p s = Done c s -> splice (c_block c) i (repeat 0 (N.to_nat n)) = Some b ->
  store_ctx a p (mk_ctx (c_count c) (c_hash c) (c_boff c) b) s = Done tt s' ->
  external E P "memory_set" [VBlock a p i; VS R32 0; VU RSz n] l s = Done (VBlock a p i, l) s'.
Proof.
  intros E P a p i n l s c b s' H1 H2 H3. unfold external. cbn [String.eqb Ascii.eqb Bool.eqb].
  change (to_unsigned E R8 (VS R32 0)) with (Some 0).
  unfold bind, lift, ret. rewrite H1, H2, H3. reflexivity.
Qed.

Lemma st_block : forall E P l a p i z n s c b s', to_unsigned E R8 (VS R32 z) = Some n ->
  load_ctx a p s = Done c s -> splice (c_block c) i [n] = Some b ->
  store_ctx a p (mk_ctx (c_count c) (c_hash c) (c_boff c) b) s = Done tt s' ->
  store_at E P l (VBlock a p i) (VS R32 z) s = Done l s'.
Proof.
  intros E P l a p i z n s c b s' H0 H1 H2 H3. cbn [store_at]. unfold bind, lift, ret. rewrite H0, H1.
  assert (L : i < N.of_nat (List.length (c_block c))).
  { unfold splice in H2. destruct (N.leb_spec (i + N.of_nat (List.length [n])) (N.of_nat (List.length (c_block c)))); [cbn [List.length] in *; lia|discriminate]. }
  rewrite put_one by exact L. rewrite splice_ok in H2 by (cbn [List.length]; lia). injection H2 as ->. rewrite H3. reflexivity.
Qed.

Lemma layout_rank : forall a u, exists y, layout_of (text_of a u) a = Some y /\ rank_eqb (l_rank y) R8 = false /\
  (forall E, bits E (l_rank y) = 8 * N.of_nat (wbytes a)) /\
  find_assoc (p_types (text_of a u)) (type_name a) = Some (a, y) /\ clear_structure y = zero_ctx (alg_of a).
Proof. intros [] u; eexists; repeat split; reflexivity. Qed.

Lemma transform_name : forall a, is_external (name_of a "context_transform") = false.
Proof. intros []; reflexivity. Qed.

Definition final_locals (a : algid) (u : bool) (p : nat) (hp : ptr) (hsize : N) (e : bool) (bsize nb bits : N) (pc : Z) (i j : nat) : locals :=
  if u then
  [("context", VCtx a p); ("hash", VBytes hp); ("hash_size", VU RSz hsize); ("error", v_error e);
   ("internal_context", VCtx a p); ("block_size", VU RSz bsize); ("number_of_blocks", VU RSz nb);
   ("process_count", VS RSz pc); ("bit_size", VU R64 bits)]
  else
  [("context", VCtx a p); ("hash", VBytes hp); ("hash_size", VU RSz hsize); ("error", v_error e);
   ("internal_context", VCtx a p); ("block_size", VU RSz bsize); ("number_of_blocks", VU RSz nb);
   ("process_count", VS RSz pc); ("bit_size", VU R64 bits);
   ("hash_index", VU RSz (N.of_nat j)); ("hash_values_index", VS R32 (Z.of_nat i))].

Lemma no_error : forall e, is_arr (v_error e) = false.
Proof. intros []; reflexivity. Qed.

Lemma final_plain : forall a u, f_arrays (final_def a u) = [] /\ f_ret (final_def a u) = (true, R32) /\ List.length (f_params (final_def a u)) = 4%nat.
Proof. intros [] u; repeat split; reflexivity. Qed.

(* go to the next statement *)
Ltac tnext :=
  repeat match goal with
  | |- den (SSeq _ _) _ _ _ = _ => tst
  | |- den SSkip _ _ _ = _ => tst
  | |- ?k _ _ _ = _ => is_var k; tk
  | |- ?k _ _ = _ => is_var k; tk
  end.

(* what finalize leaves, step by step *)
Lemma text_final_tail : forall E fuel d a p hp hsize e nb s c l0 kl ke,
  transform_as_modelled E fuel d a -> enough fuel 256 ->
  get_obj s p = Some (OCtx a c) -> ctx_wf a c ->
  get_obj s (fst hp) = Some (OBytes l0) -> snd hp + a_hs (alg_of a) <= N.of_nat (List.length l0) ->
  a_hs (alg_of a) <= hsize -> hsize <= ssize_max E ->
  kl = leave E (final_def a (unrolled E)) ->
  ke = (fun fl l => match fl with
                    | FReturn v => kl fl l
                    | FBreak => undef
                    | _ => in_text E a fuel d (f_error (final_def a (unrolled E))) l kl
                    end) ->
  in_text E a fuel d (final_text a (unrolled E))
      (final_locals a (unrolled E) p hp hsize e (final_size a c) nb 0 0 0 0) ke s =
  (r <- context_finalize E a (Some p) (Some hp) hsize e ;; ret (VS R32 r, [None; None; None; None])) s.
Proof.
  intros E fuel d a p hp hsize e nb s c l0 kl ke TT Hf Hp W Hl Hacc H1 H2 Hkl Hke.
  assert (Hne : fst hp <> p) by congruence.
  pose proof (wf_len _ _ W) as Hbk. pose proof (wf_boff _ _ W) as Hbo. pose proof (bsz_N a) as HbN.
  pose proof (bs_le a) as Hbl. pose proof (ssize_ge E) as HsG. pose proof (size_mod_gt E) as Hsm. pose proof (ssize_lt E) as HssL.
  destruct (final_size_ok a c W) as (F1 & F2 & F3).
  unfold context_finalize. rewrite checks_pass by assumption.
  rewrite !bind_assoc. erewrite bind_done by (apply load_ctx_ok; eassumption).
  fold (final_size a c). cbn zeta. set (fs := final_size a c) in *. clearbody fs.
  assert (Us : usub (2 ^ bits E RSz) fs (c_boff c) = fs - c_boff c) by (apply usub_size; lia).
  assert (Us8 : usub (2 ^ bits E RSz) fs 8 = fs - 8) by (apply usub_size; lia).
  rewrite <- bits_size_mod, Us.
  set (b1 := put (c_block c) (c_boff c) (repeat 0 (N.to_nat (fs - c_boff c)))).
  assert (S1 : splice (c_block c) (c_boff c) (repeat 0 (N.to_nat (fs - c_boff c))) = Some b1) by (apply splice_ok; rewrite repeat_length; lia).
  assert (L1 : List.length b1 = List.length (c_block c)) by (apply put_length; rewrite repeat_length; lia).
  assert (B1 : Forall is_byte b1).
  { apply Forall_put; [apply (wf_block _ _ W)|]. apply Forall_forall. intros x Hx. apply repeat_spec in Hx. subst x. reflexivity. }
  set (b2 := put b1 (c_boff c) [128]).
  assert (S2 : splice b1 (c_boff c) [128] = Some b2) by (apply splice_ok; cbn [List.length]; lia).
  assert (L2 : List.length b2 = List.length (c_block c)) by (rewrite <- L1; apply put_length; cbn [List.length]; lia).
  assert (B2 : Forall is_byte b2) by (apply Forall_put; [exact B1|repeat constructor]).
  set (n64 := (uadd 64 (c_count c) (c_boff c) * 8) mod 2 ^ 64).
  set (b3 := put b2 (fs - 8) (copy_from_uint 8 (a_big (alg_of a)) n64)).
  assert (Lw : List.length (copy_from_uint 8 (a_big (alg_of a)) n64) = 8%nat) by (rewrite copy_from_bytes; apply word_bytes_length).
  assert (S3 : splice b2 (fs - 8) (copy_from_uint 8 (a_big (alg_of a)) n64) = Some b3) by (apply splice_ok; rewrite Lw; lia).
  assert (L3 : List.length b3 = List.length (c_block c)) by (rewrite <- L2; apply put_length; rewrite Lw; lia).
  assert (B3 : Forall is_byte b3) by (apply Forall_put; [exact B2|rewrite copy_from_bytes; apply word_bytes_bytes]).
  rewrite S1, !bind_assoc, (bind_done _ _ _ _ _ _ _ (lift_some _ _ _)).
  rewrite S2, !bind_assoc, (bind_done _ _ _ _ _ _ _ (lift_some _ _ _)).
  fold n64. rewrite S3, !bind_assoc, (bind_done _ _ _ _ _ _ _ (lift_some _ _ _)).
  rewrite !bind_assoc. erewrite bind_done by (eapply store_ctx_ok; eassumption).
  set (s1 := set_obj p (OCtx a (mk_ctx (c_count c) (c_hash c) (c_boff c) b3)) s).
  assert (Hp1 : get_obj s1 p = Some (OCtx a (mk_ctx (c_count c) (c_hash c) (c_boff c) b3))) by (eapply get_set_same; eassumption).
  pose proof (transform_ok E a p b3 fs e s1 _ Hp1 (wf_hash _ _ W) B3 ltac:(lia) ltac:(lia)) as Hm.
  assert (Ht : call_text E (text_of a (unrolled E)) fuel d (name_of a "context_transform") [VCtx a p; VBlock a p 0; VU RSz fs; v_error e] s1 =
        (r <- transform E a (Some p) (Some b3) fs e ;; ret (VS RSz r, [None; None; None; None])) s1).
  { eapply TT; try eassumption; [apply tu_same | exact (wf_hash _ _ W) | right; exact (ex_intro _ _ (conj eq_refl (conj Hp1 eq_refl))) | lia | lia | unfold enough in *; lia ]. }
  rewrite (bind_done _ _ _ _ _ _ _ Hm) in Ht. unfold ret in Ht.
  rewrite F3 in *. cbn [c_count c_hash c_boff c_block] in *.
  rewrite !bind_assoc. erewrite bind_done by exact Hm. rewrite Z_of_N_ne.
  clear Hm TT.
  assert (Hh2 : hash_ok a (blocks a (c_hash c) (firstn (N.to_nat fs) b3))) by (apply blocks_ok, (wf_hash _ _ W)).
  set (fr := frame_of _ _ _ _ _ _) in *. set (h2 := blocks _ _ _) in *. clearbody fr h2.
  unfold s1 in *. rewrite set_set in *. clear s1 Hp1.
  set (s2 := add_frames [fr] (set_obj p (OCtx a (mk_ctx (c_count c) h2 (c_boff c) b3)) s)) in *.
  assert (Hp2 : get_obj s2 p = Some (OCtx a (mk_ctx (c_count c) h2 (c_boff c) b3))) by (unfold s2; tget).
  assert (Hl2 : get_obj s2 (fst hp) = Some (OBytes l0)) by (unfold s2; rewrite get_add_frames, get_set_other by congruence; exact Hl).
  rewrite !bind_assoc. erewrite bind_done by (eapply store_digest_ok; [exact Hp2|exact Hh2|exact Hl2|exact Hacc]).
  set (s3 := set_obj (fst hp) _ s2).
  assert (Hp3 : get_obj s3 p = Some (OCtx a (mk_ctx (c_count c) h2 (c_boff c) b3))) by (unfold s3; rewrite get_set_other by congruence; exact Hp2).
  rewrite !bind_assoc. erewrite bind_done by (eapply store_ctx_ok; exact Hp3). rewrite bind_ret.
  set (s4 := set_obj p (OCtx a (zero_ctx (alg_of a))) s3). unfold ret.
  destruct (layout_rank a (unrolled E)) as (y & Y1 & Y2 & Y3 & Y4 & Y5).
  pose proof (final_plain a (unrolled E)) as (G1 & G2 & G3).
  pose proof (no_error e) as Ne. pose proof (transform_name a) as Nt.
  (* the text *)
  assert (Bits : forall P call l s', lget l "internal_context" = Some (VCtx a p) ->
     get_obj s' p = Some (OCtx a (mk_ctx (c_count c) (c_hash c) (c_boff c) b2)) ->
     eval E P call (EBin OMul (EBin OAdd (EField ic "hash_count") (EField ic "block_offset")) (EInt 8)) l s' = Done (VU R64 n64, l) s').
  { intros P call l s' Hl1 Hs'. eapply ev_bin.
    - eapply ev_bin; [eapply ev_count; [eapply ev_var; [exact Hl1|reflexivity]|apply load_ctx_ok; exact Hs']
                     |eapply ev_boff; [eapply ev_var; [exact Hl1|reflexivity]|apply load_ctx_ok; exact Hs']|reflexivity].
    - reflexivity.
    - eapply bin_us; [reflexivity|reflexivity|discriminate|discriminate|apply tu_int; [reflexivity|lia]|reflexivity]. }
  assert (S1' : splice (c_block c) (c_boff c) (repeat 0 (N.to_nat (usub (2 ^ bits E RSz) fs (c_boff c)))) = Some b1) by (rewrite Us; exact S1).
  assert (Dg : so_far a hp s2 (mk_ctx (c_count c) h2 (c_boff c) b3) l0 (a_outw (alg_of a)) = s3) by reflexivity.
  assert (Ho16 : (a_outw (alg_of a) <= 16)%nat) by (clear; destruct a; vm_compute; lia).
  clearbody s3 s2. clear S1 Us.
  unfold final_text. destruct (unrolled E) eqn:Hu; destruct e; cbn [v_error final_locals] in *.
  all: (tnext;
    (eapply do_else; [eapply ev_bin; [eapply ev_ext; [tevs | reflexivity | eapply ext_set_block; [tmem | exact S1' | tmem]] | tev | tbin] | reflexivity | ]);
    tnext;
    (eapply do_assign; [tev | eapply as_index; [tev | tev | reflexivity | reflexivity | eapply st_block; [tunum | tmem | exact S2 | tmem]] | ]);
    tnext;
    (eapply do_assign; [eapply Bits; [bypair | tget] | tas | ]);
    tnext;
    (eapply (store_word E _ _ fuel _ (a_big (alg_of a)) _ _ _ (fun v => set_obj p (OCtx a (mk_ctx (c_count c) (c_hash c) (c_boff c) v)) s)
          (List.length (c_block c)) (fs - 8) 8 R64 n64);
      [ reflexivity | reflexivity | intros v Hv; tev
      | eapply place_block; [exact Hp | lia | reflexivity | intros v Hv; eapply ev_addr; [tev | tev | reflexivity | rewrite Us8; reflexivity]]
      | exact L2 | lia | fold b3 ]);
    tnext;
    (eapply do_assign; [eapply ev_call; [tevs | exact Nt | exact Ht | reflexivity] | tas |]);
    tnext; telse; [lia|]; tnext).
  1, 2: (eapply (store_digest_each E _ _ fuel _ a p hp s2 _ l0 y Hp2 Hh2 Hl2 Hacc Y1 (Y3 E) Y2); [bypair | bypair | rewrite Dg]).
  3, 4: (match goal with |- den _ ?l _ _ = _ =>
           let e := match l with context [VErr] => constr:(true) | _ => constr:(false) end in
           eapply (store_digest_for E _ _ fuel _ a p hp s2 _ l0 y Hp2 Hh2 Hl2 Hacc Y1 (Y3 E) Y2
             (fun i j => final_locals a false p hp hsize e fs nb n64 (Z.of_N fs) i j))
         end;
         [ intros; cbn [final_locals]; bypair | intros; cbn [final_locals]; bypair | intros; cbn [final_locals]; bypair
         | intros; cbn [final_locals]; bypair | intros; cbn [final_locals]; bypair | intros; cbn [final_locals]; bypair
         | cbn [final_locals]; reflexivity | unfold enough in Hf; lia | rewrite Dg; cbn [final_locals] ]).
  all: (tnext;
    (eapply do_else; [eapply ev_bin; [eapply ev_ext; [tevs | reflexivity | eapply ext_clear_structure; [exact Y4 | rewrite Y5; eapply store_ctx_ok; exact Hp3]] | tev | tbin] | reflexivity | ]);
    tnext; repeat tst; rewrite (leave_plain E _ _ (VS R32 1) _ _ G1); [rewrite G3; reflexivity | rewrite G2; reflexivity]).
Qed.

Lemma hs_le : forall a, a_hs (alg_of a) <= 64.
Proof. intros []; vm_compute; discriminate. Qed.

Lemma checks_run : forall E P call fuel A a l rest L hsize e (K : flow -> locals -> M A) s,
  lget L "hash_size" = Some (VU RSz hsize) -> lget L "error" = Some (v_error e) ->
  @den E P call fuel A (checks_text a l rest) L K s =
  match final_checks E (alg_of a) l hsize with
  | None => @den E P call fuel A rest L K s
  | Some k => K (FReturn (VS R32 (-1))) L (add_err e k s)
  end.
Proof.
  intros E P call fuel A a l rest L hsize e K s H1 H2. pose proof (hs_le a) as Hh.
  assert (Hv : forall s', eval E P call (EVar "error") L s' = Done (v_error e, L) s') by (intros; eapply ev_var; [exact H2|apply no_error]).
  assert (Hs : forall s', eval E P call (EVar "hash_size") L s' = Done (VU RSz hsize, L) s') by (intros; eapply ev_var; [exact H1|reflexivity]).
  assert (Hn : is_null (v_error e) = Some (negb e)) by (destruct e; reflexivity).
  assert (Ht : to_unsigned E RSz (VS R32 (Z.of_N (a_hs (alg_of a)))) = Some (a_hs (alg_of a))).
  { refine (eq_trans (tu_int _ _ _ _ _ _) _); [reflexivity|lia|now rewrite N2Z.id]. }
  induction l as [|k l IH]; [reflexivity|].
  destruct k; cbn [checks_text final_checks]; apply den_seq_named; intros kb K' Hkb HK'.
  - destruct (N.ltb_spec (ssize_max E) hsize) as [H|H].
    + eapply do_then.
      { eapply ev_bin; [apply Hs|eapply ev_cast; [reflexivity|apply conv_u, tu_ssize_max]|apply bin_uu; [reflexivity|discriminate|discriminate|reflexivity]]. }
      { now apply N.ltb_lt. }
      tst. eapply do_expr; [eapply ev_ext; [eapply evs_cons; [apply Hv|tevs]|reflexivity|eapply ext_error; [reflexivity|exact Hn]]|].
      repeat tk. eapply do_return; [tev|]. repeat tk. rewrite negb_involutive. reflexivity.
    + eapply do_else.
      { eapply ev_bin; [apply Hs|eapply ev_cast; [reflexivity|apply conv_u, tu_ssize_max]|apply bin_uu; [reflexivity|discriminate|discriminate|reflexivity]]. }
      { now apply N.ltb_ge. }
      tst. repeat tk. exact IH.
  - destruct (N.ltb_spec hsize (a_hs (alg_of a))) as [H|H].
    + eapply do_then.
      { eapply ev_bin; [apply Hs|eapply ev_cast; [reflexivity|apply conv_u, Ht]|apply bin_uu; [reflexivity|discriminate|discriminate|reflexivity]]. }
      { now apply N.ltb_lt. }
      tst. eapply do_expr; [eapply ev_ext; [eapply evs_cons; [apply Hv|tevs]|reflexivity|eapply ext_error; [reflexivity|exact Hn]]|].
      repeat tk. eapply do_return; [tev|]. repeat tk. rewrite negb_involutive. reflexivity.
    + eapply do_else.
      { eapply ev_bin; [apply Hs|eapply ev_cast; [reflexivity|apply conv_u, Ht]|apply bin_uu; [reflexivity|discriminate|discriminate|reflexivity]]. }
      { now apply N.ltb_ge. }
      tst. repeat tk. exact IH.
Qed.

Ltac tchecks := first [ erewrite (checks_run _ _ _ _ _ _ _ _ _ _ true) by bypair | erewrite (checks_run _ _ _ _ _ _ _ _ _ _ false) by bypair ].

Lemma checks_big : forall E a n, ssize_max E < n ->
  final_checks E (alg_of a) (a_checks (alg_of a)) n = Some E_ARGUMENT_VALUE_EXCEEDS_MAXIMUM.
Proof.
  intros E a n H. pose proof (hs_le a) as Hh. pose proof (ssize_ge E) as Hg.
  assert (Q : exists t, a_checks (alg_of a) = CheckMax :: t \/ a_checks (alg_of a) = CheckMin :: CheckMax :: t)
    by (destruct a; eexists; [left|right|right|right|right]; reflexivity).
  destruct Q as (t & [Q|Q]); rewrite Q; cbn [final_checks]; rewrite (proj2 (N.ltb_lt (ssize_max E) n) H); [reflexivity|].
  rewrite (proj2 (N.ltb_ge n _)) by lia. reflexivity.
Qed.
Lemma checks_small : forall E a n, n < a_hs (alg_of a) ->
  final_checks E (alg_of a) (a_checks (alg_of a)) n = Some E_ARGUMENT_VALUE_TOO_SMALL.
Proof.
  intros E a n H. pose proof (hs_le a) as Hh. pose proof (ssize_ge E) as Hg.
  assert (Q : exists t, a_checks (alg_of a) = CheckMin :: t \/ a_checks (alg_of a) = CheckMax :: CheckMin :: t)
    by (destruct a; eexists; [right|left|left|left|left]; reflexivity).
  destruct Q as (t & [Q|Q]); rewrite Q; cbn [final_checks]; rewrite (proj2 (N.ltb_lt n _) H); [reflexivity|].
  rewrite (proj2 (N.ltb_ge (ssize_max E) n)) by lia. reflexivity.
Qed.

Definition first_locals (u : bool) (cv hv : val) (hsize : N) (e : bool) (iv : val) : locals :=
  if u then
  [("context", cv); ("hash", hv); ("hash_size", VU RSz hsize); ("error", v_error e);
   ("internal_context", iv); ("block_size", VU RSz 0); ("number_of_blocks", VU RSz 0);
   ("process_count", VS RSz 0); ("bit_size", VU R64 0)]
  else
  [("context", cv); ("hash", hv); ("hash_size", VU RSz hsize); ("error", v_error e);
   ("internal_context", iv); ("block_size", VU RSz 0); ("number_of_blocks", VU RSz 0);
   ("process_count", VS RSz 0); ("bit_size", VU R64 0); ("hash_index", VU RSz 0); ("hash_values_index", VS R32 0)].

Lemma final_enter : forall E fuel d a p hp hsize e s R,
  (forall kl ke,
    kl = leave E (final_def a (unrolled E)) ->
    ke = (fun fl l => match fl with
                      | FReturn v => kl fl l
                      | FBreak => undef
                      | _ => in_text E a fuel d (f_error (final_def a (unrolled E))) l kl
                      end) ->
    in_text E a fuel d (final_body a (unrolled E)) (first_locals (unrolled E) (v_ctx a p) (v_bytes hp) hsize e VNull) ke s = R) ->
  call_text E (text_of a (unrolled E)) fuel (S d) (name_of a "context_finalize") [v_ctx a p; v_bytes hp; VU RSz hsize; v_error e] s = R.
Proof.
  intros E fuel d a p hp hsize e s R H. rewrite <- final_body_eq in H.
  destruct a, (unrolled E); (eapply enter_fun; [reflexivity | tpar | reflexivity | tloc | exact H]).
Qed.

Lemma text_finalize : forall E fuel d a p hp hsize e s,
  transform_as_modelled E fuel d a -> wf_state s -> enough fuel 256 -> hsize < size_mod E ->
  (forall q, p = Some q -> exists c, get_obj s q = Some (OCtx a c)) ->
  (forall q, hp = Some q -> a_hs (alg_of a) <= hsize -> hsize <= ssize_max E -> accessible s q (a_hs (alg_of a))) ->
  call_text E (text_of a (unrolled E)) fuel (S d) (name_of a "context_finalize") [v_ctx a p; v_bytes hp; VU RSz hsize; v_error e] s =
  (r <- context_finalize E a p hp hsize e ;; ret (VS R32 r, [None; None; None; None])) s.
Proof.
  intros E fuel d a p hp hsize e s TT WS Hf Hsz Hp Hh. apply final_enter. intros kl ke Hkl Hke.
  pose proof (final_plain a (unrolled E)) as (G1 & G2 & G3).
  assert (Lv : forall z l s', leave E (final_def a (unrolled E)) (FReturn (VS R32 z)) l s' = Done (VS R32 z, outs_of 4 l) s').
  { intros z l s'. rewrite (leave_plain E _ _ (VS R32 z) _ _ G1); [now rewrite G3|rewrite G2; reflexivity]. }
  destruct p as [p|].
  2: { unfold final_body. destruct (unrolled E), e, hp; cbn [first_locals v_ctx v_bytes v_error];
       (repeat tst; rewrite Lv; reflexivity). }
  destruct hp as [hp|].
  2: { unfold final_body. destruct (unrolled E), e; cbn [first_locals v_ctx v_bytes v_error];
       (repeat tst; rewrite Lv; reflexivity). }
  destruct (Hp _ eq_refl) as (c & Hc). clear Hp. specialize (Hh _ eq_refl). cbn [v_ctx v_bytes].
  assert (W : ctx_wf a c) by exact (WS _ _ Hc).
  destruct (N.ltb_spec (ssize_max E) hsize) as [Hbig|Hs].
  { clear TT Hh. unfold context_finalize. rewrite checks_big by exact Hbig. unfold final_body.
    destruct (unrolled E), e; cbn [first_locals v_error];
    (repeat tst; tchecks; rewrite checks_big by exact Hbig; repeat tst; rewrite Lv; reflexivity). }
  destruct (N.ltb_spec hsize (a_hs (alg_of a))) as [Hsm1|Hge].
  { clear TT Hh. unfold context_finalize. rewrite checks_small by exact Hsm1. unfold final_body.
    destruct (unrolled E), e; cbn [first_locals v_error];
    (repeat tst; tchecks; rewrite checks_small by exact Hsm1; repeat tst; rewrite Lv; reflexivity). }
  destruct (Hh Hge Hs) as (l0 & Hl & Hacc). clear Hh.
  pose proof (fun nb => text_final_tail E fuel d a p hp hsize e nb s c l0 kl ke TT Hf Hc W Hl Hacc Hge Hs Hkl Hke) as Tail.
  clear TT Hkl Hke. unfold final_size in Tail.
  pose proof (bs_le a) as Hbl. pose proof (thr_le a) as Htl. pose proof (size_mod_gt E) as Hsm. pose proof (ssize_ge E) as HssG.
  assert (Tt : to_unsigned E RSz (VS R32 (Z.of_N (a_thr (alg_of a)))) = Some (a_thr (alg_of a))).
  { refine (eq_trans (tu_int _ _ _ _ _ _) _); [reflexivity|lia|now rewrite N2Z.id]. }
  assert (Tb : to_unsigned E RSz (VS R32 (Z.of_N (a_bs (alg_of a)))) = Some (a_bs (alg_of a))).
  { refine (eq_trans (tu_int _ _ _ _ _ _) _); [reflexivity|lia|now rewrite N2Z.id]. }
  assert (U2 : uadd (bits E RSz) 1 1 = 2) by (apply uadd_size; lia).
  assert (M1 : (1 * a_bs (alg_of a)) mod 2 ^ bits E RSz = 1 * a_bs (alg_of a)) by (apply N.mod_small; rewrite bits_size_mod; lia).
  assert (M2 : (2 * a_bs (alg_of a)) mod 2 ^ bits E RSz = 2 * a_bs (alg_of a)) by (apply N.mod_small; rewrite bits_size_mod; lia).
  unfold final_body.
  destruct (N.ltb_spec (a_thr (alg_of a)) (c_boff c)) as [Ht|Ht];
  (destruct (unrolled E), e; cbn [first_locals v_error];
    (repeat tst; tchecks; rewrite checks_pass by assumption; tnext;
     tst; tnext)).
  1, 2, 3, 4: (tthen; [exact Ht|]).
  5, 6, 7, 8: (telse; [exact Ht|]).
  all: (tnext; tst; tnext).
  1, 2, 3, 4: (tst; tnext).
  all: rewrite ?U2, ?M1, ?M2; apply Tail.
Qed.
