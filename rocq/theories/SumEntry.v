(* The functions of hmactools/sum_handle.c that prepare, feed and end the digests, as any caller sees them.  SumHandle.v has them from
   behind their first check on, because sum_handle_process_input (sum_handle.c:988-1167) calls them with a handle that is there. *)
From Coq Require Import NArith ZArith Bool.
From Verif Require Import Words Spec Machine SumHandle.
Open Scope N_scope.

Section Entry.
  Variable E : env.

  (* sum_handle.c:473-591 sum_handle_initialize_integrity_hash, the check is in 479-489 *)
  Definition initialize_integrity_hash (sum_handle : option handle) (e : bool) : M (Z * option handle) :=
    match sum_handle with
    | None => r <- fail e E_ARGUMENT_INVALID_VALUE ;; ret (r, None)
    | Some h => x <- sum_handle_initialize_integrity_hash E h e ;; ret (fst x, Some (snd x))
    end.

  (* sum_handle.c:596-729 sum_handle_update_integrity_hash, the check is in 604-614 *)
  Definition update_integrity_hash (sum_handle : option handle) (buffer : option ptr) (buffer_size : N) (e : bool) : M Z :=
    match sum_handle with
    | None => fail e E_ARGUMENT_INVALID_VALUE
    | Some h => sum_handle_update_integrity_hash E h buffer buffer_size e
    end.

  (* sum_handle.c:734-983 sum_handle_finalize_integrity_hash, the check is in 746-756 *)
  Definition finalize_integrity_hash (sum_handle : option handle) (e : bool) : M Z :=
    match sum_handle with
    | None => with_hashes E (fun _ => fail e E_ARGUMENT_INVALID_VALUE)
    | Some h => sum_handle_finalize_integrity_hash E h e
    end.
End Entry.
