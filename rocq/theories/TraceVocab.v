(* Words used in the statements of PropTrace.v. *)
From Coq Require Import Arith NArith ZArith List Bool.
From Verif Require Import Words Spec Tables Transform Machine Vocab Context Hash Trace.
Import ListNotations.
Open Scope N_scope.

(* the two objects differ at most in the bytes they hold: arrays have the same length; contexts are of the same algorithm
   and equally far into the message *)
Definition same_but_bytes (o o' : obj) : Prop :=
  match o, o' with
  | OBytes l, OBytes l' => length l = length l'
  | OCtx a c, OCtx a' c' =>
      a = a' /\ c_count c = c_count c' /\ c_boff c = c_boff c' /\
      length (c_hash c) = length (c_hash c') /\ length (c_block c) = length (c_block c')
  | OPtr p, OPtr p' => p = p'
  | _, _ => False
  end.
(* the two memories differ at most in bytes *)
Definition same_layout (s s' : state) : Prop :=
  Forall2 (fun c c' => live c = live c' /\ knd c = knd c' /\ same_but_bytes (content c) (content c')) (mem s) (mem s') /\
  tries s = tries s'.
(* the two builds are the same and memory runs out at the same requests; what new memory holds may differ *)
Definition same_choices (E E' : env) : Prop :=
  unrolled E = unrolled E' /\ plat64 E = plat64 E' /\ forall n, alloc_ok E n = alloc_ok E' n.

(* the record of a run, its return value, the state after it *)
Definition trace_of {A} (o : traced A) : option (list event) := match o with TDone t _ _ => Some t | TUndef => None end.
Definition value_of {A} (o : traced A) : option A := match o with TDone _ a _ => Some a | TUndef => None end.
Definition outcome_of {A} (o : traced A) : outcome A := match o with TDone _ a s => Done a s | TUndef => Undef end.

(* number of blocks processed *)
Fixpoint blocks (t : list event) : nat :=
  match t with
  | [] => 0
  | BlockDone _ :: t => S (blocks t)
  | _ :: t => blocks t
  end.

(* blocks of a message of n bytes with its padding: one byte 0x80, zeros, the length in 8 bytes (16 for SHA-512) *)
Definition padded_blocks (a : algid) (n : N) : N :=
  let size := n + 1 + match a with SHA512 => 16 | _ => 8 end in
  (size + (block_size a - 1)) / block_size a.

(* the same record, the same result, memories of the same layout; or both runs undefined *)
Definition same_run {A} (o o' : traced A) : Prop :=
  match o, o' with
  | TDone t r s, TDone t' r' s' => t = t' /\ r = r' /\ same_layout s s'
  | TUndef, TUndef => True
  | _, _ => False
  end.
