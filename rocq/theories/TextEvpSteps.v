(* Executing the text of libhmac_X_context.c in the builds with libcrypto as run_evp of EvpCalls.v runs it. *)
From Coq Require Import Arith NArith ZArith List Bool String Lia.
From Verif Require Import Words Machine MachineFacts Evp CText TextAll TextFacts TextEvp EvpCalls.
Import ListNotations.
Open Scope string_scope.
Open Scope list_scope.
Open Scope N_scope.

(* A statement is executed up to the next call of a primitive of the machine or of the provider, and what that does is decided. *)
Ltac norm t := eval cbv -[allocate mfree error_set get_obj put_obj p_init p_update p_final p_cleanup view take write N.ltb N.of_nat List.length
  set_obj new_cell tick add_err mem tries Z.eqb Nat.eqb] in t.
Ltac normal t := let u := norm t in change t with u.
Ltac settle x :=
  lazymatch x with
  | match ?y with _ => _ end => settle y
  | match ?y with _ => _ end _ => settle y
  | Z.eqb ?y ?k =>
      let b := eval cbv in (Z.eqb y k) in
      lazymatch b with
      | true => change (Z.eqb y k) with true
      | false => change (Z.eqb y k) with false
      | _ => lazymatch y with match ?u with _ => _ end => settle u | _ => case (Z.eqb y k); intros end
      end
  | Nat.eqb ?y ?y => rewrite (Nat.eqb_refl y)
  | error_set ?e ?k ?s => change (error_set e k s) with (Done tt (add_err e k s))
  | _ => case x; intros
  end.
Ltac tidy := lazy beta iota zeta delta [fst snd test negb truth N.eqb Pos.eqb].
Ltac dstep :=
  match goal with
  | |- den (SSeq _ _) _ _ _ = _ => apply den_seq_named; intros ? ? ? ?
  | |- den SSkip _ _ _ = _ => refine (eq_trans (den_skip _ _ _ _ _ _ _ _) _)
  | |- den SGoto _ _ _ = _ => refine (eq_trans (den_goto _ _ _ _ _ _ _ _) _)
  | |- den (SExpr _) _ _ _ = _ => rewrite den_expr
  | |- den (SAssign _ _) _ _ _ = _ => rewrite den_assign
  | |- den (SIf _ _ _) _ _ _ = _ => rewrite den_if
  | |- den (SReturn _) _ _ _ = _ => rewrite den_return
  | |- match ?x with _ => _ end = _ =>
      lazymatch x with
      | eval _ _ _ _ _ _ => normal x
      | assign _ _ _ _ _ _ _ => normal x
      | _ => settle x
      end; tidy
  | |- Undef = Undef => reflexivity
  | |- Done _ _ = Done _ _ => first [reflexivity | match goal with |- context [if ?b then VErr else VNull] => case b; reflexivity end]
  | |- den (f_error ?d) _ _ _ = _ => let b := eval hnf in (f_error d) in change (f_error d) with b
  | |- leave _ _ _ _ _ = _ => match goal with |- ?x = _ => normal x end
  | |- _ => tk
  end.
Lemma start_fun : forall E P call fuel def args s l l1 R,
  bind_params E (f_params def) args = Some l -> f_arrays def = [] ->
  enter_locals E P call (f_locals def) (l ++ []) s = Done l1 s ->
  (forall kl ke, kl = leave E def ->
                ke = (fun fl l => match fl with
                             | FReturn v => kl fl l
                             | FBreak => undef
                             | _ => @den E P call fuel _ (f_error def) l kl
                             end) ->
     @den E P call fuel _ (f_body def) l1 ke s = R) ->
  run_fun E P call fuel def args s = R.
Proof. intros E P call fuel def args s l l1 R H1 H2 H3 H4. rewrite run_fun_eq, H1, H2. cbn [enter_arrays ret]. unfold ret. rewrite H3. eapply H4; reflexivity. Qed.

Ltac left_normal := match goal with |- ?x = _ => normal x end.
Ltac start :=
  match goal with |- _ = ?r => normal r end;
  unfold run_evp; match goal with |- match ?x with _ => _ end _ = _ => let y := eval hnf in x in change x with y end; cbv beta iota;
  eapply start_fun; [left_normal; reflexivity | reflexivity | left_normal; reflexivity | intros ? ? ? ?; match goal with |- den ?b _ _ _ = _ => let b' := eval hnf in b in change b with b' end].

(* the functions that do not depend on EVP_DigestInit_ex2 *)
Lemma same_function : forall E P v ex2 fuel a f args, In f ["context_free"; "context_update"; "context_finalize"] ->
  run_evp E P v ex2 fuel a f args = run_evp E P v false fuel a f args.
Proof. intros E P v ex2 fuel a f args H. destruct ex2, v as [[]| |]; try reflexivity; destruct a; repeat (destruct H as [<-|H]; [reflexivity|]); destruct H. Qed.
