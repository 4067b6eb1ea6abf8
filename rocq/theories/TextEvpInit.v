(* initialize of libhmac_X_context.c in the builds with libcrypto: text and model agree *)
From Coq Require Import Arith NArith ZArith List Bool String Lia.
From Verif Require Import Words Machine MachineFacts Evp CText TextAll TextFacts TextEvp EvpCalls TextEvpSteps.
Import ListNotations.
Open Scope string_scope.
Open Scope list_scope.
Open Scope N_scope.

(* the memory while the structure and the context are made *)
Lemma get_tick : forall s p, get_obj (tick s) p = get_obj s p.
Proof. reflexivity. Qed.
Lemma get_err : forall e k s p, get_obj (add_err e k s) p = get_obj s p.
Proof. reflexivity. Qed.
Lemma replace_cell : forall s k o o', set_obj (List.length (mem s)) o (tick (new_cell k o' s)) = tick (new_cell k o s).
Proof.
  intros. unfold set_obj, tick, new_cell. cbn [mem]. rewrite nth_error_app2 by lia. rewrite Nat.sub_diag. cbn [nth_error live knd].
  unfold set_mem. cbn [tries errs resid]. rewrite replace_app_last. reflexivity.
Qed.
Ltac sizes := cbn [mem tick new_cell]; rewrite ?set_obj_length; cbn [mem tick new_cell]; rewrite ?app_length; cbn [List.length]; lia.
Ltac value :=
  first [ apply get_new | rewrite get_tick; value | rewrite get_err; value | eapply get_set_same; value
        | rewrite get_set_other by sizes; value | rewrite get_new_old by sizes; value ].
Ltac memory :=
  match goal with
  | |- context [error_set ?e ?k ?s] => change (error_set e k s) with (Done tt (add_err e k s))
  | H : alloc_ok ?E (tries ?s) = true |- context [allocate _ ?E ?s] => rewrite !(fun o => allocate_ok o E s H)
  | H : alloc_ok ?E (tries ?s) = false |- context [allocate _ ?E ?s] => rewrite !(fun o => allocate_no o E s H)
  | |- context [allocate _ ?E ?s] => let H := fresh in destruct (alloc_ok E (tries s)) eqn:H
  | |- context [set_obj (List.length (mem ?s)) _ (tick (new_cell _ _ ?s))] => rewrite replace_cell
  | |- context [set_obj ?p (OPtr None) ?s] => rewrite (set_id s p (OPtr None)) by value
  | |- context [get_obj ?s ?p] => let H := fresh in eassert (H : get_obj s p = Some _) by value; rewrite !H; clear H
  | |- context [put_obj ?p ?o ?s] => erewrite (put_obj_ok s p _ o) by value
  end; tidy.

Lemma evp_initialize_agrees : forall E P v ex2 fuel a c e s,
  run_evp E P v ex2 fuel a "context_initialize" [v_place a c; v_error e] s =
  (r <- evp_initialize E P v a c e ;; ret (VS R32 (fst r), [option_map (fun _ => v_ctx a (snd r)) c; None])) s.
Proof.
  intros E P v ex2 fuel a c e s.
  destruct a; destruct v as [[]| |]; destruct ex2; destruct c as [[q|]|]; start.
  all: repeat first [memory | dstep].
Qed.
