(* update of libhmac_X_context.c in the builds with libcrypto: text and model agree *)
From Coq Require Import Arith NArith ZArith List Bool String.
From Verif Require Import Words Machine MachineFacts Evp CText TextAll TextFacts TextEvp EvpCalls TextEvpSteps.
Import ListNotations.
Open Scope string_scope.
Open Scope list_scope.
Open Scope N_scope.

Lemma evp_update_agrees : forall E P v ex2 fuel a c b n e s, (v = Legacy true -> plat64 E = true) ->
  run_evp E P v ex2 fuel a "context_update" [v_ctx a c; v_bytes b; VU RSz n; v_error e] s =
  (r <- evp_update E P v a c b n e ;; ret (VS R32 r, [None; None; None; None])) s.
Proof.
  intros E P v ex2 fuel a c b n e s H. rewrite same_function by (cbn; tauto). destruct E as [u p64 ok j sj].
  destruct a; destruct v as [[]| |]; destruct p64; try discriminate (H eq_refl); clear H; destruct c; try destruct b; start.
  all: repeat dstep.
Qed.
