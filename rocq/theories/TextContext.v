(* The text of libhmac_X_context_initialize and libhmac_X_context_free does what
   Context.v says. *)
From Coq Require Import Arith NArith ZArith List Lia Bool String.
From Verif Require Import Words Machine Context Hash CText TextMd5 TextSha1 TextSha224 TextSha256 TextSha512 TextAll.
From Verif Require Import MachineFacts HashFacts TextFacts.
Import ListNotations.
Open Scope string_scope.
Open Scope list_scope.
Open Scope N_scope.

(* what is left at the place a pointer to a context was passed for *)
Definition left_at (a : algid) (place : option (option nat)) (p : option nat) : option val :=
  match place with Some _ => Some (v_ctx a p) | None => None end.

Lemma set_tick_new : forall k o o' s,
  set_obj (List.length (mem s)) o' (tick (new_cell k o s)) = tick (new_cell k o' s).
Proof.
  intros. unfold set_obj, tick, new_cell. cbn. rewrite nth_error_app2 by lia. rewrite Nat.sub_diag. cbn.
  unfold set_mem. cbn. f_equal. induction (mem s) as [|x t IH]; cbn; [reflexivity|]. now rewrite IH.
Qed.

Lemma ext_free_undef : forall E P a p l s, mfree p s = Undef ->
  external E P "memory_free" [VCtx a p] l s = Undef.
Proof. intros. unfold external. cbn [String.eqb Ascii.eqb Bool.eqb]. unfold bind. rewrite H. reflexivity. Qed.

Ltac tenter :=
  eapply enter_fun; [reflexivity | tpar | reflexivity | tloc | intros kl ke Hkl Hke].
Ltac tbody :=
  match goal with |- den (f_error ?d) _ _ _ = _ => let d' := eval hnf in d in
     match d' with Build_fundef _ _ _ _ _ _ ?b => change (f_error d) with b end
  | _ => idtac end;
  match goal with |- den (f_body ?d) _ _ _ = _ => let d' := eval hnf in d in
     match d' with Build_fundef _ _ _ _ _ ?b _ => change (f_body d) with b end
  | _ => idtac end.

Lemma text_initialize : forall E fuel d a c e s,
  call_text E (text_of a (unrolled E)) fuel (S d) (name_of a "context_initialize") [v_place a c; v_error e] s =
  (r <- context_initialize E a c e ;; ret (VS R32 (fst r), [left_at a c (snd r); None])) s.
Proof.
  intros E fuel d a c e s. destruct c as [[c|]|].
  1, 3: destruct a, e; (tenter; tbody; repeat tst; reflexivity).
  unfold bind. rewrite initialize_eq. destruct (alloc_ok E (tries s)) eqn:Al; cbn [fst snd].
  - destruct a, e; (tenter; tbody; repeat tst;
    [eapply do_assign; [eapply ev_ext; [tevs | reflexivity | eapply ext_alloc_structure; [reflexivity|rewrite allocate_ok by assumption; reflexivity]]| tas | ]];
    repeat tst;
    eapply do_if; [eapply ev_bin; [eapply ev_ext; [tevs | reflexivity | eapply ext_clear_structure; [reflexivity | tmem]] | tev | tbin ] | reflexivity | discriminate | intros _ ];
    repeat tst;
    eapply do_if; [eapply ev_bin; [eapply ev_ext; [tevs | reflexivity | eapply ext_copy_table; [reflexivity|reflexivity|reflexivity|reflexivity|reflexivity|tmem|reflexivity|tmem] ] | tev | tbin ] | reflexivity | discriminate | intros _ ];
    repeat tst). 
    all: (erewrite leave_plain by reflexivity; f_equal; rewrite set_tick_new; reflexivity).
  - destruct a, e; (tenter; tbody; repeat tst;
    [eapply do_assign; [eapply ev_ext; [tevs | reflexivity | eapply ext_alloc_structure; [reflexivity|rewrite allocate_no by assumption; reflexivity]]| tas | ]];
    repeat tst; tbody; repeat tst; erewrite leave_plain by reflexivity; reflexivity).
Qed.

Lemma text_free : forall E fuel d a c e s,
  call_text E (text_of a (unrolled E)) fuel (S d) (name_of a "context_free") [v_place a c; v_error e] s =
  (r <- context_free a c e ;; ret (VS R32 (fst r), [left_at a c (snd r); None])) s.
Proof.
  intros E fuel d a c e s. destruct c as [[c|]|].
  2, 3: destruct a, e; (tenter; tbody; repeat tst; reflexivity).
  cbn [context_free]. unfold bind at 1 2. destruct (mfree c s) as [[] s'|] eqn:F.
  - destruct a, e; (tenter; tbody; repeat tst;
    (eapply do_expr; [eapply ev_ext; [tevs | reflexivity | eapply ext_free_structure; exact F]|]); repeat tst;
    erewrite leave_plain by reflexivity; reflexivity).
  - destruct a, e; (tenter; tbody; repeat tst). 
all: (erewrite den_expr, ev_call_eq, bind_done by tevs; cbn [fst snd v_ctx];
          change (is_external "memory_free") with true; cbv iota; rewrite ext_free_undef by exact F; reflexivity).
Qed.
