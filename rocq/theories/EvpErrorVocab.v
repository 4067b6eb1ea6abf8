(* Vocabulary for C59: what the builds on a message digest provider report, and what they leave in memory.  No proofs. *)
From Coq Require Import Arith NArith ZArith List Bool.
From Verif Require Import Words Spec Machine Vocab Evp.
Import ListNotations.
Open Scope N_scope.

(* What a call may meet, in order: something that ends it with these entries, or something that adds entries and lets it go on. *)
Inductive event : Type := Stop (P : Prop) (ks : list err) | Note (P : Prop) (ks : list err).
(* whether the call came to its end, and the entries it added *)
Inductive told : list event -> bool -> list err -> Prop :=
| told_all : told [] true []
| told_stop : forall (P : Prop) ks l, P -> told (Stop P ks :: l) false ks
| told_go : forall (P : Prop) ks l b es, ~ P -> told l b es -> told (Stop P ks :: l) b es
| told_note : forall (P : Prop) ks l b es, P -> told l b es -> told (Note P ks :: l) b (ks ++ es)
| told_skip : forall (P : Prop) ks l b es, ~ P -> told l b es -> told (Note P ks :: l) b es.
(* the return value and the error object say so *)
Definition said (e b : bool) (es : list err) (r : Z) (s s' : state) : Prop :=
  r = (if b then 1 else -1)%Z /\ errs s' = errs s ++ (if e then es else []).
(* the caller adds an entry of its own *)
Definition and_then (k : err) (l : list event) : list event :=
  map (fun x => match x with Stop P ks => Stop P (ks ++ [k]) | Note P ks => Note P ks end) l.

(* what the provider returned to the calls made for one context: to the initialization, to at most two updates, to the
   request for the digest and to the clean up; each is a value that it does return for some state and data *)
Record answers : Type := mk_answers { ans_init : Z; ans_first : Z; ans_second : Z; ans_final : Z; ans_cleanup : Z }.
Record answers_of (P : provider) (a : algid) (x : answers) : Prop := {
  of_init : exists s, ans_init x = fst (p_init P a s);
  of_first : exists s c d, ans_first x = fst (p_update P a s c d);
  of_second : exists s c d, ans_second x = fst (p_update P a s c d);
  of_final : exists s c, ans_final x = fst (fst (p_final P a s c));
  of_cleanup : exists s, ans_cleanup x = p_cleanup P a s;
}.

(* the context at p has been left with the contents c by the provider *)
Definition provider_bytes (v : variant) (s : state) (p : nat) (c : list N) : Prop :=
  match v with
  | Outside => exists q, get_obj s p = Some (OPtr (Some q)) /\ get_obj s q = Some (OBytes c)
  | _ => get_obj s p = Some (OBytes c)
  end.

(* the provider refuses the bytes, the request *)
Definition update_refused (P : provider) (v : variant) (a : algid) (s : state) (p : option nat) (b : option ptr) (n : N) : Prop :=
  exists q c x, p = Some q /\ provider_bytes v s q c /\ b = Some x /\ fst (p_update P a s c (bytes_at s x n)) <> 1%Z.
Definition final_refused (P : provider) (v : variant) (a : algid) (s : state) (p : option nat) : Prop :=
  exists q c, p = Some q /\ provider_bytes v s q c /\ fst (fst (p_final P a s c)) <> 1%Z.

Definition is_given (p : option ptr) : bool := match p with Some _ => true | None => false end.
(* allocations for one context: the structure, and what EVP_MD_CTX_new makes *)
Definition per_context (v : variant) : nat := match v with Outside => 2 | _ => 1 end.

(* initialize with allocation t the next one, i the answer of the provider *)
Definition open_events (E : env) (v : variant) (i : Prop) (t : nat) : list event :=
  [ Stop (alloc_ok E t = false) [E_MEMORY_INSUFFICIENT];
    Stop (v = Outside /\ alloc_ok E (S t) = false) [E_RUNTIME_INITIALIZE_FAILED];
    Stop i [E_RUNTIME_INITIALIZE_FAILED] ].
(* update with n bytes; no bytes are not given to the provider *)
Definition update_events (E : env) (v : variant) (refused : Prop) (given : bool) (n : N) : list event :=
  [ Stop (given = false) [E_ARGUMENT_INVALID_VALUE];
    Stop (match v with Legacy true => if plat64 E then 2 ^ 32 - 1 else ssize_max E | _ => ssize_max E end < n) [E_ARGUMENT_VALUE_EXCEEDS_MAXIMUM];
    Stop (0 < n /\ refused) [E_RUNTIME_SET_FAILED] ].
(* finalize into a place of n bytes *)
Definition final_events (E : env) (v : variant) (a : algid) (refused : Prop) (given : bool) (n : N) : list event :=
  [ Stop (given = false) [E_ARGUMENT_INVALID_VALUE] ] ++
  match v with
  | Legacy _ => [ Stop (ssize_max E < n) [E_ARGUMENT_VALUE_EXCEEDS_MAXIMUM]; Stop (n < digest_size a) [E_ARGUMENT_VALUE_TOO_SMALL] ]
  | _ => [ Stop (n < digest_size a \/ 2 ^ 32 - 1 < n) [E_ARGUMENT_VALUE_OUT_OF_BOUNDS] ]
  end ++ [ Stop refused [E_RUNTIME_FINALIZE_FAILED] ].
(* free: only EVP_MD_CTX_cleanup can fail *)
Definition close_events (v : variant) (refused : Prop) : list event := [ Note (v = Inside /\ refused) [E_RUNTIME_FINALIZE_FAILED] ].

(* a context from beginning to end, as the functions above use one *)
Definition session_events (E : env) (v : variant) (a : algid) (x : answers) (t : nat) (updates : list event) (given : bool) (n : N) : list event :=
  and_then E_RUNTIME_INITIALIZE_FAILED (open_events E v (ans_init x <> 1%Z) t) ++
  and_then E_RUNTIME_SET_FAILED updates ++
  and_then E_RUNTIME_FINALIZE_FAILED (final_events E v a (ans_final x <> 1%Z) given n) ++
  close_events v (ans_cleanup x <> 1%Z).

Definition calculate_events (E : env) (v : variant) (a : algid) (x : answers) (b : option ptr) (n : N) (h : option ptr) (hn : N) (t : nat) : list event :=
  session_events E v a x t (update_events E v (ans_first x <> 1%Z) (is_given b) n) (is_given h) hn.

(* x1, x2 and x3 are the answers while a long key, the inner and the outer message are hashed *)
Definition hmac_events (E : env) (v : variant) (a : algid) (x1 x2 x3 : answers) (k : option ptr) (kn : N) (b : option ptr) (n : N)
  (h : option ptr) (hn : N) (t : nat) : list event :=
  let t' := if block_size a <? kn then (t + 1 + per_context v)%nat else (t + 1)%nat in
  [ Stop (k = None) [E_ARGUMENT_INVALID_VALUE]; Stop (ssize_max E < kn) [E_ARGUMENT_VALUE_EXCEEDS_MAXIMUM];
    Stop (hn < digest_size a) [E_ARGUMENT_VALUE_TOO_SMALL]; Stop (alloc_ok E t = false) [E_MEMORY_INSUFFICIENT] ] ++
  (if block_size a <? kn
   then session_events E v a x1 (t + 1) (update_events E v (ans_first x1 <> 1%Z) true kn) true (digest_size a) else []) ++
  [ Stop (alloc_ok E t' = false) [E_MEMORY_INSUFFICIENT]; Stop (alloc_ok E (t' + 1) = false) [E_MEMORY_INSUFFICIENT] ] ++
  session_events E v a x2 (t' + 2)
    (update_events E v (ans_first x2 <> 1%Z) true (block_size a) ++ update_events E v (ans_second x2 <> 1%Z) (is_given b) n) (is_given h) hn ++
  session_events E v a x3 (t' + 2 + per_context v)
    (update_events E v (ans_first x3 <> 1%Z) true (block_size a) ++ update_events E v (ans_second x3 <> 1%Z) (is_given h) (digest_size a)) (is_given h) hn.

(* contents that a call of the provider has left in a context *)
Definition left_by (P : provider) (a : algid) (l : list N) : Prop :=
  (exists s, l = snd (p_init P a s)) \/ (exists s c d, l = snd (p_update P a s c d)) \/ (exists s c, l = snd (p_final P a s c)).
(* a freed array of a block has been cleared; otherwise it was a structure without its pointer, or the provider's *)
Definition cleared (P : provider) (a : algid) (c : cell) : Prop :=
  live c = false /\
  (content c = OBytes (repeat 0 (N.to_nat (block_size a))) \/ content c = OPtr None \/ exists l, content c = OBytes l /\ left_by P a l).
