(* Steps of the text of sum_handle.c: its members, its calls, the blocks that it repeats for each digest. *)
From Coq Require Import Arith NArith ZArith List Lia Bool String.
From Verif Require Import Words Spec Machine Context Hash ToolStrings SumHandle SumEntry CText TextAll TextTools ToolCalls TextSum SumCalls.
From Verif Require Import Vocab MachineFacts HashFacts TextFacts TextContext TextSteps TextHash TextDigest.
Import ListNotations.
Open Scope string_scope.
Open Scope list_scope.
Open Scope N_scope.

(* ------------------------------------------------------------------ running a function *)

Lemma call_sum_eq : forall E O sg fuel d f args,
  call_sum E O sg fuel (S d) f args =
  match find_fun (p_functions (sum_text sg)) f with
  | Some def => run_fun E (sum_text sg) (call_sum E O sg fuel d) fuel def args
  | None => sum_call E O f args
  end.
Proof. reflexivity. Qed.

Lemma outside_call : forall E O sg fuel d f args,
  find_fun (p_functions (sum_text sg)) f = None -> call_sum E O sg fuel d f args = sum_call E O f args.
Proof. intros E O sg fuel [|d] f args H; [reflexivity|]. now rewrite call_sum_eq, H. Qed.

Lemma enter_sum : forall E O sg fuel d f def args s l l1 s2 R,
  find_fun (p_functions (sum_text sg)) f = Some def -> f_arrays def = [] ->
  bind_params E (f_params def) args = Some l ->
  enter_locals E (sum_text sg) (call_sum E O sg fuel d) (f_locals def) l s = Done l1 s2 ->
  (forall kl ke, kl = leave E def ->
                ke = (fun fl l => match fl with
                             | FReturn v => kl fl l
                             | FBreak => undef
                             | _ => @den E (sum_text sg) (call_sum E O sg fuel d) fuel _ (f_error def) l kl
                             end) ->
     @den E (sum_text sg) (call_sum E O sg fuel d) fuel _ (f_body def) l1 ke s2 = R) ->
  call_sum E O sg fuel (S d) f args s = R.
Proof.
  intros E O sg fuel d f def args s l l1 s2 R H1 H2 H3 H4 H5. rewrite call_sum_eq, H1, run_fun_eq, H3, H2.
  cbn [enter_arrays]. unfold ret. rewrite app_nil_r, H4. eapply H5; reflexivity.
Qed.

(* ------------------------------------------------------------------ the members *)

Definition alg_name (a : algid) : string :=
  match a with MD5 => "md5" | SHA1 => "sha1" | SHA224 => "sha224" | SHA256 => "sha256" | SHA512 => "sha512" end.
Definition flag_of (a : algid) : string := String.append "sum_handle->calculate_" (alg_name a).
Definition context_of (a : algid) : string := String.append "sum_handle->" (String.append (alg_name a) "_context").
Definition string_of (a : algid) : string := String.append "sum_handle->calculated_" (String.append (alg_name a) "_hash_string").

Definition member_names : list string :=
  "sum_handle->input_handle" :: flat_map (fun a => [flag_of a; context_of a; string_of a]) all_algs ++
  ["sum_handle->process_buffer_size"; "sum_handle->abort"; "file->reads"; "file->offset"].

Definition frame (pre : locals) (h : handle) (k : nat) (pos : N) (post : locals) : locals :=
  pre ++ combine member_names (map VRef (members h k pos)) ++ post.

(* what a function that does not touch the rest finds in its frame and leaves there *)
Record view_of (L : handle -> locals) (e : bool) : Prop := {
  at_error : forall h, lget (L h) "error" = Some (v_error e);
  at_flag : forall h a, lget (L h) (flag_of a) = Some (VRef (v_flag (calculate (slots h a))));
  at_context : forall h a, lget (L h) (context_of a) = Some (VRef (v_ctx a (context (slots h a))));
  at_string : forall h a, lget (L h) (string_of a) = Some (VRef (v_string (hash_string (slots h a))));
  to_flag : forall h a b, lset (L h) (flag_of a) (VRef (v_flag b)) =
    Some (L (set_slot a (mk_slot b (context (slots h a)) (hash_string (slots h a))) h));
  to_context : forall h a p, lset (L h) (context_of a) (VRef (v_ctx a p)) =
    Some (L (set_slot a (mk_slot (calculate (slots h a)) p (hash_string (slots h a))) h));
  to_string : forall h a q, lset (L h) (string_of a) (VRef (v_string q)) =
    Some (L (set_slot a (mk_slot (calculate (slots h a)) (context (slots h a)) q) h));
}.
Ltac viewed := constructor; intros; repeat match goal with a : algid |- _ => destruct a end; reflexivity.

Lemma null_string : forall q, is_null (v_string q) = Some (match q with Some _ => false | None => true end).
Proof. intros []; reflexivity. Qed.
Lemma ctx_back : forall a p, ctx_of a (v_ctx a p) = Some p.
Proof. intros a [p|]; [destruct a|]; reflexivity. Qed.
Lemma bytes_back : forall p, bytes_of (v_bytes p) = Some p.
Proof. intros []; reflexivity. Qed.
Lemma given_back : forall e, given_of (v_error e) = Some e.
Proof. intros []; reflexivity. Qed.

(* ------------------------------------------------------------------ statements *)

Section Statements.
  Variables (E : env) (P : program) (call : string -> list val -> M (val * list (option val))) (fuel : nat) (T : Type).
  Notation dn := (@den E P call fuel T).

  (* if( sum_handle->calculate_X != 0 ) *)
  Lemma flagged : forall x b l X Y K s, lget l x = Some (VRef (v_flag b)) ->
    dn (SIf (EBin ONe (EOut x) (EInt 0)) X Y) l K s = if b then dn X l K s else dn Y l K s.
  Proof. intros x b l X Y K s H. rewrite den_if, ev_bin_eq. cbn [eval]. rewrite H. destruct b; reflexivity. Qed.

  (* if( *x == NULL ), if( *x != NULL ) *)
  Lemma star_missing : forall x v b l X Y K s, lget l x = Some (VRef v) -> is_null v = Some b ->
    dn (SIf (EBin OEq (EStar x) ENull) X Y) l K s = if b then dn X l K s else dn Y l K s.
  Proof.
    intros x v b l X Y K s H1 H2. rewrite den_if.
    erewrite ev_bin; [|eapply ev_star; exact H1|reflexivity|cbn [binary]; rewrite H2; reflexivity].
    cbn [fst snd]. rewrite test_truth. destruct b; reflexivity.
  Qed.
  Lemma star_given : forall x v b l X Y K s, lget l x = Some (VRef v) -> is_null v = Some b ->
    dn (SIf (EBin ONe (EStar x) ENull) X Y) l K s = if b then dn Y l K s else dn X l K s.
  Proof.
    intros x v b l X Y K s H1 H2. rewrite den_if.
    erewrite ev_bin; [|eapply ev_star; exact H1|reflexivity|cbn [binary]; rewrite H2; reflexivity].
    cbn [fst snd]. rewrite test_truth. destruct b; reflexivity.
  Qed.

  (* if( f( ... ) != c ) A else B *)
  Lemma checked_to : forall B c f es l vs (m : M B) (g : B -> Z) outs (lr : B -> locals) X Y K s,
    evs E P call es l s = Done (vs, l) s -> is_external f = false ->
    call f vs s = (r <- m ;; ret (VS R32 (g r), outs r)) s ->
    (forall r, copy_out es (outs r) l = Some (lr r)) ->
    dn (SIf (EBin ONe (ECall f es) (EInt c)) X Y) l K s =
    (r <- m ;; if negb (g r =? c)%Z then dn X (lr r) K else dn Y (lr r) K) s.
  Proof.
    intros B c f es l vs m g outs lr X Y K s H1 H2 H3 H4. rewrite den_if.
    rewrite ev_bin_eq, ev_call_eq. unfold bind in H3 |- *. rewrite H1. cbn [fst snd]. rewrite H2, H3. destruct (m s) as [r s1|]; [|reflexivity]. unfold ret. cbn [fst snd]. rewrite H4.
    unfold lift, ret. cbn [eval fst snd]. unfold ret. cbn [fst snd].
    change (binary E ONe (VS R32 (g r)) (VS R32 c)) with (Some (truth (negb (g r =? c)%Z))). cbn [fst snd]. rewrite test_truth.
    destruct (negb (g r =? c)%Z); reflexivity.
  Qed.

  (* x = f( ... ); *)
  Lemma assigned : forall B y f es l vs (m : M B) (g : B -> val) outs (l1 lr : B -> locals) K s,
    evs E P call es l s = Done (vs, l) s -> is_external f = false ->
    call f vs s = (r <- m ;; ret (g r, outs r)) s ->
    (forall r, copy_out es (outs r) l = Some (l1 r)) ->
    (forall r s1, m s = Done r s1 -> assign E P call y (g r) (l1 r) s1 = Done (lr r) s1) ->
    dn (SAssign y (ECall f es)) l K s = (r <- m ;; K FNext (lr r)) s.
  Proof.
    intros B y f es l vs m g outs l1 lr K s H1 H2 H3 H4 H5. rewrite den_assign.
    rewrite ev_call_eq. unfold bind at 1. rewrite H1. cbn [fst snd]. rewrite H2.
    unfold bind in H3 |- *. rewrite H3. destruct (m s) as [r s1|] eqn:Q; [|reflexivity]. unfold ret. cbn [fst snd]. rewrite H4.
    unfold lift, ret. cbn [fst snd]. rewrite (H5 _ _ eq_refl). reflexivity.
  Qed.

  (* the error entry, then goto on_error *)
  Lemma jumped : forall d c k e l K s, error_of d c = Some k -> lget l "error" = Some (v_error e) ->
    dn (SExpr (ECall "libcerror_error_set" [(EVar "error"); (EName d); (EName c)]) ;- SGoto) l K s =
    (error_set e k ;;; K FError l) s.
  Proof. intros d c k e l K s H1 H2. rewrite den_seq, (erred _ _ _ _ _ _ _ k e _ _ _ H1 H2). apply bind_ext. reflexivity. Qed.

  (* blocks that are repeated for each digest *)
  Definition chain (blk : algid -> stmt) (l : list algid) (rest : stmt) : stmt := fold_right (fun a r => blk a ;- r) rest l.

  Lemma chain_run : forall blk f (L : handle -> locals) (FL : Z -> flow) rest K,
    (forall z, FL z <> FNext) ->
    (forall a h K s, dn (blk a) (L h) K s = (r <- f a h ;; K (if (fst r =? 1)%Z then FNext else FL (fst r)) (L (snd r))) s) ->
    forall l h s, dn (chain blk l rest) (L h) K s =
      (r <- steps f l h ;; if (fst r =? 1)%Z then dn rest (L (snd r)) K else K (FL (fst r)) (L (snd r))) s.
  Proof.
    intros blk f L FL rest K HF HB. induction l as [|a t IH]; intros h s; [reflexivity|].
    change (chain blk (a :: t) rest) with (blk a ;- chain blk t rest). rewrite den_seq, HB. cbn [steps]. rewrite bind_assoc.
    apply bind_ext. intros [z h1] s1 _. cbn [fst snd]. destruct (z =? 1)%Z eqn:Z1; [apply IH|].
    unfold bind, ret. cbn [fst snd]. rewrite Z1. specialize (HF z). destruct (FL z); congruence || reflexivity.
  Qed.
End Statements.

(* the first check of every function *)
Definition no_handle_text : stmt :=
  SIf (EBin OEq (EVar "sum_handle") ENull) (
      SExpr (ECall "libcerror_error_set" [(EVar "error"); (EName "LIBCERROR_ERROR_DOMAIN_ARGUMENTS"); (EName "LIBCERROR_ARGUMENT_ERROR_INVALID_VALUE")]) ;-
      SReturn (EInt (-1))) SSkip.

Lemma minus_one : forall E rk, convert E true rk (VS R32 (-1)) = Some (VS rk (-1)%Z).
Proof. intros E rk. cbn [convert to_signed]. destruct rk; cbn [bits rank_eqb]; [reflexivity|reflexivity|destruct (plat64 E); reflexivity|reflexivity]. Qed.

Lemma without_handle : forall E P call fuel def rest e n rk l (ke : flow -> locals -> M (val * list (option val))) s,
  f_body def = (no_handle_text ;- rest) -> f_arrays def = [] -> f_ret def = (true, rk) -> List.length (f_params def) = n ->
  lget l "sum_handle" = Some VNull -> lget l "error" = Some (v_error e) ->
  (forall v l1, ke (FReturn v) l1 = leave E def (FReturn v) l1) ->
  @den E P call fuel _ (f_body def) l ke s = (r <- fail e E_ARGUMENT_INVALID_VALUE ;; ret (VS rk r, outs_of n l)) s.
Proof.
  intros E P call fuel def rest e n rk l ke s H1 H2 H3 H4 H5 H6 H7. rewrite H1, den_seq. unfold no_handle_text.
  rewrite (missing _ _ _ _ _ "sum_handle" VNull true) by (exact H5 || reflexivity).
  eapply failed; [reflexivity|exact H6|]. intros s1. rewrite H7. erewrite leave_plain by (exact H2 || (rewrite H3; apply minus_one)).
  rewrite H4. reflexivity.
Qed.

Lemma with_handle : forall E P call fuel T rest p l (K : flow -> locals -> M T) s,
  lget l "sum_handle" = Some (VBytes p) ->
  @den E P call fuel T (no_handle_text ;- rest) l K s = @den E P call fuel T rest l K s.
Proof.
  intros E P call fuel T rest p l K s H. rewrite den_seq. unfold no_handle_text.
  rewrite (missing _ _ _ _ _ "sum_handle" (VBytes p) false) by (exact H || reflexivity). reflexivity.
Qed.
