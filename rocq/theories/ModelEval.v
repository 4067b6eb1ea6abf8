(* Evaluating the specification by running the model: the two are proved equal and the model is faster. *)
From Coq Require Import String Ascii Arith NArith ZArith List Bool Lia.
From Verif Require Import Words Spec Machine Vocab Context Hash LibTheorems Demo.
Import ListNotations.
Open Scope N_scope.

Definition eval_state (k m : list N) : state := mk_state [array k; array m; array (repeat 0 64)] 0 [] [].
Definition eval_hash (a : algid) (m : list N) : list N :=
  bytes_at (final (calculate (demo_env true true) a (Some (1%nat, 0)) (N.of_nat (length m)) (Some (2%nat, 0)) 64 false (eval_state [] m)))
           (2%nat, 0) (digest_size a).
Definition eval_hmac (a : algid) (k m : list N) : list N :=
  bytes_at (final (calculate_hmac (demo_env true true) a (Some (0%nat, 0)) (N.of_nat (length k)) (Some (1%nat, 0)) (N.of_nat (length m))
                    (Some (2%nat, 0)) 64 false (eval_state k m))) (2%nat, 0) (digest_size a).

Lemma eval_good : forall k m, Forall is_byte k -> Forall is_byte m -> good_state (eval_state k m).
Proof.
  intros k m Hk Hm p o Ho. unfold get_obj, eval_state in Ho. cbn [mem] in Ho.
  destruct p as [|[|[|p]]]; cbn in Ho; try discriminate.
  - injection Ho as <-. exact Hk.
  - injection Ho as <-. exact Hm.
  - injection Ho as <-. cbn. apply Forall_forall. intros x Hx. apply (repeat_spec 64) in Hx. subst. reflexivity.
  - now destruct p.
Qed.
Lemma eval_bytes : forall k m, bytes_at (eval_state k m) (0%nat, 0) (N.of_nat (length k)) = k /\
  bytes_at (eval_state k m) (1%nat, 0) (N.of_nat (length m)) = m.
Proof.
  intros k m. unfold bytes_at, get_obj, eval_state. cbn [mem fst snd nth_error live content array].
  rewrite !Nat2N.id. split; [exact (firstn_all k)|exact (firstn_all m)].
Qed.
Lemma digest_le : forall a, digest_size a <= 64.
Proof. destruct a; discriminate. Qed.
Lemma big : ssize_max (demo_env true true) = 2 ^ 63 - 1.
Proof. reflexivity. Qed.

Lemma spec_by_model : forall a m, Forall is_byte m -> N.of_nat (length m) < 2 ^ 61 -> spec_hash a m = eval_hash a m.
Proof.
  intros a m Hm HL. pose proof (eval_good [] m (Forall_nil _) Hm) as G.
  assert (A1 : arg (eval_state [] m) (Some (1%nat, 0)) (N.of_nat (length m))) by (exists m; split; [reflexivity|apply N.le_refl]).
  assert (A2 : arg (eval_state [] m) (Some (2%nat, 0)) 64) by (exists (repeat 0 64); split; [reflexivity|apply N.le_refl]).
  destruct (calc_spec a (demo_env true true) (Some (1%nat, 0)) (N.of_nat (length m)) (Some (2%nat, 0)) 64 false (eval_state [] m)
    G A1 A2 (fun _ => or_intror HL)) as (r & s' & HR & [(_ & _ & _ & bp & hp & Hb & Hh & HD)|(_ & [(i & _ & X)|X])]).
  - unfold eval_hash. rewrite HR. cbn [final]. injection Hb as <-. injection Hh as <-. rewrite HD.
    now rewrite (proj2 (eval_bytes [] m)).
  - discriminate.
  - exfalso. apply X. split; [discriminate|]. split; [discriminate|]. rewrite big. pose proof (digest_le a). split; [lia|]. split; [assumption|discriminate].
Qed.
Lemma spec_hmac_by_model : forall a k m, Forall is_byte k -> Forall is_byte m ->
  N.of_nat (length k) < 2 ^ 61 -> 128 + N.of_nat (length m) < 2 ^ 61 -> spec_hmac a k m = eval_hmac a k m.
Proof.
  intros a k m Hk Hm HLk HL. pose proof (eval_good k m Hk Hm) as G.
  assert (A0 : arg (eval_state k m) (Some (0%nat, 0)) (N.of_nat (length k))) by (exists k; split; [reflexivity|apply N.le_refl]).
  assert (A1 : arg (eval_state k m) (Some (1%nat, 0)) (N.of_nat (length m))) by (exists m; split; [reflexivity|apply N.le_refl]).
  assert (A2 : arg (eval_state k m) (Some (2%nat, 0)) 64) by (exists (repeat 0 64); split; [reflexivity|apply N.le_refl]).
  destruct (hmac_spec a (demo_env true true) (Some (0%nat, 0)) (N.of_nat (length k)) (Some (1%nat, 0)) (N.of_nat (length m)) (Some (2%nat, 0)) 64 false (eval_state k m)
    G A0 A1 A2 (fun _ => or_intror (conj HLk HL))) as (r & s' & HR & [(_ & _ & _ & kp & bp & hp & Hk' & Hb & Hh & HD)|(_ & [(i & _ & X)|X])]).
  - unfold eval_hmac. rewrite HR. cbn [final]. injection Hk' as <-. injection Hb as <-. injection Hh as <-. rewrite HD.
    now rewrite (proj1 (eval_bytes k m)), (proj2 (eval_bytes k m)).
  - discriminate.
  - exfalso. apply X. split; [discriminate|]. split; [rewrite big; lia|]. split; [discriminate|]. split; [discriminate|].
    rewrite big. pose proof (digest_le a). split; [lia|]. split; [assumption|discriminate].
Qed.

Definition bytesb (l : list N) : bool := forallb (fun x => x <? 256) l.
Lemma bytesb_ok : forall l, bytesb l = true -> Forall is_byte l.
Proof. intros l H. apply Forall_forall. intros x Hx. unfold bytesb in H. rewrite forallb_forall in H. apply N.ltb_lt. now apply H. Qed.

(* the value of the specification on a concrete message *)
Lemma spec_eval : forall a m d, bytesb m = true -> N.of_nat (length m) <? 2 ^ 61 = true -> eval_hash a m = d -> spec_hash a m = d.
Proof. intros a m d H1 H2 <-. apply spec_by_model; [now apply bytesb_ok|now apply N.ltb_lt]. Qed.
Lemma spec_hmac_eval : forall a k m d, bytesb k = true -> bytesb m = true -> N.of_nat (length k) <? 2 ^ 61 = true ->
  128 + N.of_nat (length m) <? 2 ^ 61 = true -> eval_hmac a k m = d -> spec_hmac a k m = d.
Proof. intros a k m d H1 H2 H3 H4 <-. apply spec_hmac_by_model; try (now apply bytesb_ok); now apply N.ltb_lt. Qed.
