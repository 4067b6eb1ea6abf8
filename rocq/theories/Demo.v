(* Concrete environments and memories for the examples beside the theorems. *)
From Coq Require Import String Ascii Arith NArith ZArith List Bool.
From Verif Require Import Words Spec Machine Vocab.
Import ListNotations.
Open Scope N_scope.

Definition text (s : string) : list N := map N_of_ascii (list_ascii_of_string s).

(* everything works; memory is full of rubbish *)
Definition demo_env (u p64 : bool) : env :=
  mk_env u p64 (fun _ => true) (fun i j => N.of_nat (3 * i + 5 * j + 7) mod 256) (fun i j => N.of_nat (11 * i + j + 1)).
(* the n-th allocation fails *)
Definition demo_fail (u p64 : bool) (n : nat) : env :=
  mk_env u p64 (fun i => negb (Nat.eqb i n)) (fun i j => N.of_nat (3 * i + 5 * j + 7) mod 256) (fun i j => N.of_nat (11 * i + j + 1)).

Definition array (l : list N) : cell := mk_cell true Heap (OBytes l).
Definition demo_long : list N := text "Test Using Larger Than Block-Size Key - Hash Key First".
(* the caller's arrays: 0 "abc", 1 an output buffer, 2 and 3 a short key and a message
   (RFC 2202, RFC 4231 case 1), 4 and 5 a long key and a message (RFC 4231 case 6),
   6 a message of 200 bytes *)
Definition demo_mem : list cell :=
  [ array (text "abc"); array (repeat 0xee 80);
    array (repeat 0x0b 20); array (text "Hi There");
    array (repeat 0xaa 131); array demo_long;
    array (map (fun i => N.of_nat (7 * i) mod 256) (seq 0 200)) ].
Definition demo_state : state := mk_state demo_mem 0 [] [].

Definition result {A} (o : outcome A) : option A := match o with Done a _ => Some a | Undef => None end.
Definition final {A} (o : outcome A) : state := match o with Done _ s => s | Undef => mk_state [] 0 [] [] end.
(* return value and n bytes of array i afterwards *)
Definition seen {A} (o : outcome A) (i : nat) (n : N) : option (A * list N) :=
  match o with Done a s => Some (a, bytes_at s (i, 0) n) | Undef => None end.

Definition bytes_cellb (c : cell) : bool :=
  match content c with OBytes l => forallb (fun x => x <? 256) l | _ => false end.
Lemma bytes_good : forall s, forallb bytes_cellb (mem s) = true -> good_state s.
Proof.
  intros s H p o Ho. unfold get_obj in Ho. destruct (nth_error (mem s) p) as [c|] eqn:Hc; [|discriminate].
  destruct (live c); [|discriminate]. injection Ho as <-. rewrite forallb_forall in H.
  specialize (H c (nth_error_In _ _ Hc)). unfold bytes_cellb in H. destruct (content c) as [l| |]; [|discriminate|discriminate].
  cbn. apply Forall_forall. intros x Hx. rewrite forallb_forall in H. specialize (H x Hx). now apply N.ltb_lt.
Qed.
Lemma demo_good : good_state demo_state.
Proof. apply bytes_good. vm_compute. reflexivity. Qed.

Lemma demo_arg : forall i l k n, nth_error demo_mem i = Some (array l) -> k + n <= N.of_nat (length l) ->
  arg demo_state (Some (i, k)) n.
Proof. intros i l k n H L. exists l. split; [|exact L]. unfold get_obj, demo_state. cbn [mem fst]. rewrite H. reflexivity. Qed.

(* closes goals [arg demo_state (Some (i, k)) n] with concrete i, k, n *)
Ltac demo_arg := eapply demo_arg; [reflexivity|vm_compute; discriminate].
