(* free of libhmac_X_context.c in the builds with libcrypto: text and model agree *)
From Coq Require Import Arith NArith ZArith List Bool String.
From Verif Require Import Words Machine MachineFacts Evp CText TextAll TextFacts TextEvp EvpCalls TextEvpSteps.
Import ListNotations.
Open Scope string_scope.
Open Scope list_scope.
Open Scope N_scope.

Lemma evp_free_agrees : forall E P v ex2 fuel a c e s,
  run_evp E P v ex2 fuel a "context_free" [v_place a c; v_error e] s =
  (r <- evp_free P v a c e ;; ret (VS R32 (fst r), [option_map (fun _ => v_ctx a (snd r)) c; None])) s.
Proof.
  intros E P v ex2 fuel a c e s. rewrite same_function by (cbn; tauto).
  destruct a; destruct v as [[]| |]; destruct c as [[q|]|]; start.
  all: repeat dstep.
Qed.
