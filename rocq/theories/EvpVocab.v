(* Vocabulary for the statements about builds on a message digest provider.  No proofs. *)
From Coq Require Import Arith NArith ZArith List Bool.
From Verif Require Import Words Spec Machine Vocab Evp.
Import ListNotations.
Open Scope N_scope.

(* The contract of a provider for one hash function.  [holds c m]: a context with contents c has been given the message m.
   A call that does not return 1 promises nothing but that it writes bytes and no more of them than a digest has. *)
Record honours (P : provider) (a : algid) (holds : list N -> list N -> Prop) : Prop := {
  h_init : forall s c, p_init P a s = (1%Z, c) -> holds c [];
  h_update : forall s c m d c', holds c m -> Forall is_byte d -> p_update P a s c d = (1%Z, c') -> holds c' (m ++ d);
  h_final : forall s c m d c', holds c m -> p_final P a s c = (1%Z, d, c') -> d = spec_hash a m;
  h_init_bytes : forall s, Forall is_byte (snd (p_init P a s));
  h_update_bytes : forall s c d, Forall is_byte (snd (p_update P a s c d));
  h_final_bytes : forall s c, Forall is_byte (snd (p_final P a s c)) /\ Forall is_byte (snd (fst (p_final P a s c)));
  h_final_size : forall s c, N.of_nat (length (snd (fst (p_final P a s c)))) <= digest_size a;
}.

(* a provider that never fails *)
Definition reliable (P : provider) (a : algid) : Prop :=
  forall s, fst (p_init P a s) = 1%Z /\ p_cleanup P a s = 1%Z /\
  forall c, fst (fst (p_final P a s c)) = 1%Z /\ forall d, fst (p_update P a s c d) = 1%Z.

(* what this build takes: the largest size of a message, and sizes of the place for a digest *)
Definition evp_hash_args (E : env) (v : variant) (a : algid) (buffer : option ptr) (size : N) (hash : option ptr) (hash_size : N) : Prop :=
  buffer <> None /\ hash <> None /\
  size <= match v with Legacy true => if plat64 E then 2 ^ 32 - 1 else ssize_max E | _ => ssize_max E end /\
  digest_size a <= hash_size <= match v with Legacy _ => ssize_max E | _ => 2 ^ 32 - 1 end.
Definition evp_hmac_args (E : env) (v : variant) (a : algid) (key : option ptr) (key_size : N) (buffer : option ptr) (size : N)
  (hmac : option ptr) (hmac_size : N) : Prop :=
  key <> None /\ key_size <= ssize_max E /\
  (block_size a < key_size -> key_size <= match v with Legacy true => if plat64 E then 2 ^ 32 - 1 else ssize_max E | _ => ssize_max E end) /\
  evp_hash_args E v a buffer size hmac hmac_size.

(* memory is the same, but for a digest at the output *)
Definition only_output (a : algid) (s s' : state) (out : option ptr) : Prop :=
  match out with None => unchanged s s' | Some h => unchanged_but s s' h (digest_size a) end.

(* s1 and s2 have every cell of s alike *)
Definition same_cells (s s1 s2 : state) : Prop :=
  forall q, (q < length (mem s))%nat -> nth_error (mem s1) q = nth_error (mem s2) q.

(* a client: initialize, update with each of a list of buffers, finalize, free; where a function fails it adds an error
   to those it has been given and frees the context *)
Fixpoint client_updates (F : functions) (context : option nat) (ups : list (option ptr * N)) (e : bool) : M bool :=
  match ups with
  | [] => ret true
  | (b, n) :: ups =>
      r <- f_update F context b n e ;;
      if negb (r =? 1)%Z then error_set e E_RUNTIME_SET_FAILED ;;; ret false else client_updates F context ups e
  end.
Definition client_gives_up (F : functions) (context : option nat) : M bool :=
  match context with
  | Some p => f_free F (Some (Some p)) false ;;; ret false
  | None => ret false
  end.
Definition client (F : functions) (ups : list (option ptr * N)) (hash : option ptr) (hash_size : N) (e : bool) : M bool :=
  r <- f_initialize F (Some None) e ;;
  let context := snd r in
  if negb (fst r =? 1)%Z then error_set e E_RUNTIME_INITIALIZE_FAILED ;;; client_gives_up F context
  else
    ok <- client_updates F context ups e ;;
    if negb ok then client_gives_up F context
    else
      r <- f_finalize F context hash hash_size e ;;
      if negb (r =? 1)%Z then error_set e E_RUNTIME_FINALIZE_FAILED ;;; client_gives_up F context
      else
        r <- f_free F (Some context) e ;;
        if negb (fst r =? 1)%Z then error_set e E_RUNTIME_FINALIZE_FAILED ;;; client_gives_up F (snd r)
        else ret true.
(* the bytes of a list of buffers *)
Definition all_bytes (s : state) (ups : list (option ptr * N)) : list N :=
  concat (map (fun up => match fst up with Some b => bytes_at s b (snd up) | None => [] end) ups).
(* sizes and pointers a client may use *)
Definition client_args (E : env) (v : variant) (a : algid) (ups : list (option ptr * N)) (hash : option ptr) (hash_size : N) : Prop :=
  (forall up, In up ups -> fst up <> None /\
     (snd up <= match v with Legacy true => if plat64 E then 2 ^ 32 - 1 else ssize_max E | _ => ssize_max E end)) /\
  hash <> None /\ digest_size a <= hash_size <= match v with Legacy _ => ssize_max E | _ => 2 ^ 32 - 1 end.

(* providers for the examples: the context is the message so far; the second one fails when it is to give a digest
   of more than n bytes of message, the third one when it is to clean up *)
Definition plain_provider : provider :=
  mk_provider (fun _ _ => (1%Z, [])) (fun _ _ c d => (1%Z, map (fun x => x mod 256) (c ++ d)))
              (fun a _ c => (1%Z, spec_hash a c, [])) (fun _ _ => 1%Z).
Definition small_provider (n : nat) : provider :=
  mk_provider (fun _ _ => (1%Z, [])) (fun _ _ c d => (1%Z, map (fun x => x mod 256) (c ++ d)))
              (fun a _ c => if Nat.ltb n (length c) then (0%Z, [], []) else (1%Z, spec_hash a c, [])) (fun _ _ => 1%Z).
Definition messy_provider : provider :=
  mk_provider (fun _ _ => (1%Z, [])) (fun _ _ c d => (1%Z, map (fun x => x mod 256) (c ++ d)))
              (fun a _ c => (1%Z, spec_hash a c, [])) (fun _ _ => 0%Z).
