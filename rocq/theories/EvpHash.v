(* The files libhmac_X.c in the builds with libcrypto: their text, which is the same in every build (TextMd5.v and so on), with calls that
   execute the text of libhmac_X_context.c in the build (TextEvp.v). *)
From Coq Require Import NArith ZArith List Bool String.
From Verif Require Import Words Spec Machine Evp CText TextAll TextEvp EvpCalls.
Import ListNotations.
Open Scope string_scope.
Open Scope list_scope.

(* a call from libhmac_X.c to a function of libhmac_X_context.c *)
Definition call_evp (E : env) (P : provider) (v : variant) (ex2 : bool) (fuel : nat) (a : algid) (f : string) (args : list val)
  : M (val * list (option val)) :=
  match find_fun (evp_functions v ex2 a) f with
  | Some def => run_fun E evp_text (evp_call E P v a) fuel def args
  | None => undef
  end.

(* run a function of libhmac_X.c in the build [v] *)
Definition run_evp_hash (E : env) (P : provider) (v : variant) (ex2 : bool) (fuel : nat) (a : algid) (f : string) (args : list val)
  : M (val * list (option val)) :=
  match find_fun (p_functions (text_of a (unrolled E))) (name_of a f) with
  | Some def => run_fun E (text_of a (unrolled E)) (call_evp E P v ex2 fuel a) fuel def args
  | None => undef
  end.

(* libhmac_md5.c:35-138: initialize, free, update and finalize of libhmac_X.c pass on their arguments, in every build; Hash.v has them
   with the functions of Context.v *)
Definition hash_initialize_with (F : functions) (context : option (option nat)) (e : bool) : M (Z * option nat) :=
  r <- f_initialize F context e ;;
  if (fst r =? 1)%Z then ret r else z <- fail e E_RUNTIME_INITIALIZE_FAILED ;; ret (z, snd r).
Definition hash_free_with (F : functions) (context : option (option nat)) (e : bool) : M (Z * option nat) :=
  r <- f_free F context e ;;
  if (fst r =? 1)%Z then ret r else z <- fail e E_RUNTIME_FINALIZE_FAILED ;; ret (z, snd r).
Definition hash_update_with (F : functions) (context : option nat) (buffer : option ptr) (size : N) (e : bool) : M Z :=
  r <- f_update F context buffer size e ;; if (r =? 1)%Z then ret 1%Z else fail e E_RUNTIME_SET_FAILED.
Definition hash_finalize_with (F : functions) (context : option nat) (hash : option ptr) (hash_size : N) (e : bool) : M Z :=
  r <- f_finalize F context hash hash_size e ;; if (r =? 1)%Z then ret 1%Z else fail e E_RUNTIME_FINALIZE_FAILED.

(* what the provider leaves in a context and writes to the hash are bytes *)
Definition gives_bytes (P : provider) (a : algid) : Prop :=
  (forall s, Forall is_byte (snd (p_init P a s))) /\
  (forall s c d, Forall is_byte (snd (p_update P a s c d))) /\
  (forall s c, Forall is_byte (snd (p_final P a s c)) /\ Forall is_byte (snd (fst (p_final P a s c)))).

(* the four functions of libhmac_X.c for a client (EvpVocab.v): the model, and the text *)
Definition hash_functions (F : functions) : functions :=
  mk_functions (hash_initialize_with F) (hash_free_with F) (hash_update_with F) (hash_finalize_with F).
Definition hash_by_text (E : env) (P : provider) (v : variant) (ex2 : bool) (fuel : nat) (a : algid) : functions :=
  mk_functions
    (fun c e => r <- run_evp_hash E P v ex2 fuel a "initialize" [v_place a c; v_error e] ;;
                z <- lift (int_of (fst r)) ;; p <- lift (context_of (snd r)) ;; ret (z, p))
    (fun c e => r <- run_evp_hash E P v ex2 fuel a "free" [v_place a c; v_error e] ;;
                z <- lift (int_of (fst r)) ;; p <- lift (context_of (snd r)) ;; ret (z, p))
    (fun c b n e => r <- run_evp_hash E P v ex2 fuel a "update" [v_ctx a c; v_bytes b; VU RSz n; v_error e] ;; lift (int_of (fst r)))
    (fun c h n e => r <- run_evp_hash E P v ex2 fuel a "finalize" [v_ctx a c; v_bytes h; VU RSz n; v_error e] ;; lift (int_of (fst r))).
