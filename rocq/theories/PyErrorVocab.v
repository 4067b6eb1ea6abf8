(* What is said about the texts of exceptions.  No proofs. *)
From Coq Require Import Arith NArith ZArith List Bool.
From Verif Require Import Words Machine Context Py PyError.
Import ListNotations.
Open Scope N_scope.

(* t is the string that begins the characters l, cut after n characters: it has no end of string character in it, and
   it stops where l does, at an end of string character or after n characters *)
Definition begins (n : N) (l t : list N) : Prop :=
  (exists rest, l = t ++ rest /\ (rest = [] \/ (exists r, rest = 0 :: r) \/ N.of_nat (length t) = n)) /\
  ~ In 0 t /\ N.of_nat (length t) <= n.
(* t is u with a space for every line feed and carriage return *)
Definition on_one_line (u t : list N) : Prop :=
  Forall2 (fun c d => d = if (c =? 10) || (c =? 13) then 32 else c) u t.
(* t is u without one full stop at the end, if it has one *)
Definition without_stop (u t : list N) : Prop := u = t ++ [46] \/ (u = t /\ forall v, u <> v ++ [46]).
(* an array of characters as pyhmac_error.c has on its stack *)
Definition error_array (l : list N) : Prop := N.of_nat (length l) = 2048.
(* the references that an exception indicator has *)
Definition references (x : option exception) (objects : nat) : list nat :=
  match x with
  | None => []
  | Some (Occurred t v b) => t :: match v with Some v => [v] | None => [] end ++ match b with Some b => [b] | None => [] end
  | Some (Formatted _ _) => [objects; S objects]
  end.
(* the value of an exception: the object whose text is shown *)
Definition value_of (x : option exception) (objects : nat) : option nat :=
  match x with
  | None => None
  | Some (Occurred _ v _) => v
  | Some (Formatted _ _) => Some (S objects)
  end.
