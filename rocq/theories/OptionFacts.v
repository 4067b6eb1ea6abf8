(* Each call of hmactools_getopt that gives an option uses up characters of the arguments. *)
From Coq Require Import Arith NArith ZArith List Lia Bool.
From Verif Require Import Words Machine Context SumHandle Getopt.
Import ListNotations.
Open Scope N_scope.

Definition letters_of_main : list N := [100; 58; 104; 112; 58; 118; 86].

Ltac opened := cbn [obind] in *.

Section Options.
  Variables (sc : bool) (argv : list (list N)).

  Definition placed (g : getopt_state) : Prop :=
    (1 <= optind g <= Nat.max 1 (length argv))%nat /\
    match next_option g with
    | Some (i, j) => i = optind g /\ exists t, nth_error argv i = Some t /\ (j < length t)%nat
    | None => True
    end.
  Definition remaining (g : getopt_state) : nat :=
    match next_option g with
    | Some (i, j) => size_of (skipn i argv) - j
    | None => size_of (skipn (optind g) argv)
    end.

  Lemma size_skipn : forall l i t, nth_error l i = Some t -> size_of (skipn i l) = (S (length t) + size_of (skipn (S i) l))%nat.
  Proof. induction l as [|x l IH]; intros [|i] t H; try discriminate; [injection H as <-; reflexivity|]. exact (IH i t H). Qed.
  Lemma size_skipn_le : forall l i, (size_of (skipn i l) <= size_of l)%nat.
  Proof. induction l as [|x l IH]; intros [|i]; try (cbn; lia). cbn [skipn]. specialize (IH i). cbn [size_of fold_right]. change (fold_right _ _ l) with (size_of l). lia. Qed.

  (* an argument and a place in it *)
  Lemma char_inv : forall i j c, char_at argv (i, j) = Some c -> exists t, nth_error argv i = Some t /\ (j <= length t)%nat /\ (c <> 0 -> (j < length t)%nat).
  Proof.
    intros i j c H. unfold char_at in H. cbn [fst snd] in H. destruct (nth_error argv i) as [t|]; [|discriminate]. cbn [obind] in H. exists t. split; [reflexivity|].
    assert (L : (j < length (t ++ [0%N]))%nat) by (apply nth_error_Some; congruence). rewrite app_length in L. cbn [length] in L. split; [lia|].
    intros Hc. destruct (Nat.eq_dec j (length t)) as [->|]; [|lia]. rewrite nth_error_app2, Nat.sub_diag in H by lia. injection H as <-. now contradiction Hc.
  Qed.

  (* behind the choice of the character *)
  Definition decide_option (options : list N) (p : nat * nat) (g : getopt_state) : option (Z * getopt_state) :=
    c <-? char_at argv p;
    let g := set_optopt c g in
    let option_value := search_character sc c options in
    let argument_value := (fst p, S (snd p)) in
    if (c =? 58) || (match option_value with None => true | Some _ => false end)
    then d <-? char_at argv argument_value; Some (63%Z, if d =? 0 then set_optind (S (optind g)) g else g)
    else
      v <-? option_value; o <-? nth_error (options ++ [0]) (S v); d <-? char_at argv argument_value;
      if negb (o =? 58) then
        let g := set_optarg None g in
        Some (Z.of_N c, if d =? 0 then set_optind (S (optind g)) g else set_next_option (Some argument_value) g)
      else if negb (d =? 0) then Some (Z.of_N c, set_optind (S (optind g)) (set_optarg (Some argument_value) g))
      else
        let g := set_optind (S (optind g)) g in
        if Nat.leb (length argv) (optind g) then Some (58%Z, g)
        else Some (Z.of_N c, set_optind (S (optind g)) (set_optarg (Some (optind g, 0%nat)) g)).

  Lemma getopt_cases : forall options g r g', placed g -> hmactools_getopt sc argv options g = Some (r, g') ->
    (r = (-1)%Z /\ (1 <= optind g' <= Nat.max 1 (length argv))%nat) \/
    exists j g0, decide_option options (optind g, j) g0 = Some (r, g') /\ optind g0 = optind g /\ next_option g0 = None /\ (optind g < length argv)%nat /\
      forall t, nth_error argv (optind g) = Some t -> (size_of (skipn (optind g) argv) - j <= remaining g)%nat.
  Proof.
    intros options g r g' [B1 B2] H. unfold hmactools_getopt in H. destruct (next_option g) as [[i j]|] eqn:N; opened.
    - destruct B2 as (-> & t & T & L). right. exists j, (set_next_option None g). split; [exact H|]. split; [reflexivity|]. split; [reflexivity|].
      split; [apply nth_error_Some; congruence|]. intros t' T'. unfold remaining. rewrite N. lia.
    - destruct (Nat.leb_spec (length argv) (optind g)) as [L|L]; opened; [ injection H as <- <-; left; split; [reflexivity|lia]|].
      destruct (char_at argv (optind g, 0%nat)) as [c|]; [|discriminate]. opened.
      destruct (c =? 0); [opened; injection H as <- <-; left; split; [reflexivity|lia]|].
      destruct (negb (c =? 45)); [opened; injection H as <- <-; left; split; [reflexivity|lia]|].
      destruct (char_at argv (optind g, 1%nat)) as [c1|]; [|discriminate]. opened.
      destruct (c1 =? 45); [opened; injection H as <- <-; left; split; [reflexivity|cbn [optind set_optind]; lia]|].
      right. exists 1%nat, g. split; [exact H|]. split; [reflexivity|]. split; [exact N|]. split; [lia|]. intros t T. unfold remaining. rewrite N. lia.
  Qed.

  Lemma getopt_step : forall options g r g', placed g -> hmactools_getopt sc argv options g = Some (r, g') ->
    (1 <= optind g' <= Nat.max 1 (length argv))%nat /\
    (r <> (-1)%Z -> (0 < remaining g)%nat) /\
    (r <> (-1)%Z -> r <> 63%Z -> r <> 58%Z -> placed g' /\ (remaining g' < remaining g)%nat).
  Proof.
    intros options g r g' B H. destruct (getopt_cases _ _ _ _ B H) as [[-> K]|(j & g0 & D & O & N & L & Q)].
    { split; [exact K|]. split; now intros. }
    destruct B as [B1 _]. unfold decide_option in D. cbn [fst snd] in D.
    destruct (char_at argv (optind g, j)) as [c|] eqn:C; [|discriminate]. opened. destruct (char_inv _ _ _ C) as (t & T & J & _).
    specialize (Q t T). rewrite (size_skipn _ _ _ T) in Q.
    set (all := remaining g) in *. clearbody all. assert (R : (0 < all)%nat) by lia.
    destruct ((c =? 58) || _); opened.
    { destruct (char_at argv (optind g, S j)) as [d|]; [|discriminate]. opened; injection D as <- <-.
      split; [|split; [now intros|intros _ A; now contradiction A]]. destruct (d =? 0); cbn [optind set_optind set_optopt]; lia. }
    destruct (search_character sc c options) as [v|]; [|discriminate]. opened. destruct (nth_error (options ++ [0]) (S v)) as [o|]; [|discriminate]. opened.
    destruct (char_at argv (optind g, S j)) as [d|] eqn:D1; [|discriminate]. opened. destruct (char_inv _ _ _ D1) as (t' & T' & J1 & J2).
    assert (t' = t) by congruence. subst t'.
    destruct (negb (o =? 58)).
    { opened; injection D as <- <-. destruct (N.eqb_spec d 0) as [Z|NZ].
      - cbn [optind set_optind set_optopt set_optarg]. split; [lia|]. split; [now intros|]. intros _ _ _. unfold placed, remaining.
        cbn [optind set_optind set_optopt set_optarg next_option]. rewrite N, O. split; [split; [lia|exact I]|]. lia.
      - cbn [optind set_optind set_optopt set_optarg set_next_option]. split; [lia|]. split; [now intros|]. intros _ _ _. unfold placed, remaining.
        cbn [optind set_optind set_optopt set_optarg set_next_option next_option]. rewrite O. split.
        + split; [lia|]. split; [reflexivity|]. exists t. split; [exact T|]. now apply J2.
        + rewrite (size_skipn _ _ _ T). lia. }
    destruct (negb (d =? 0)).
    { opened; injection D as <- <-. cbn [optind set_optind set_optopt set_optarg]. split; [lia|]. split; [now intros|]. intros _ _ _. unfold placed, remaining.
      cbn [optind set_optind set_optopt set_optarg next_option]. rewrite N, O. split; [split; [lia|exact I]|]. lia. }
    cbn [optind set_optind set_optopt] in D. destruct (Nat.leb_spec (length argv) (S (optind g0))) as [M|M].
    { opened; injection D as <- <-. cbn [optind set_optind set_optopt]. split; [lia|]. split; [now intros|]. intros _ _ A. now contradiction A. }
    opened; injection D as <- <-. cbn [optind set_optind set_optopt set_optarg]. split; [lia|]. split; [now intros|]. intros _ _ _. unfold placed, remaining.
    cbn [optind set_optind set_optopt set_optarg next_option]. rewrite N. split; [split; [lia|exact I]|].
    rewrite O in *. destruct (nth_error argv (S (optind g))) as [u|] eqn:U; [|apply nth_error_None in U; lia].
    rewrite (size_skipn _ _ _ U) in Q. lia.
  Qed.

  (* the options -d and -p of main have values *)
  Lemma getopt_value : forall g r g', placed g -> hmactools_getopt sc argv letters_of_main g = Some (r, g') -> r = 100%Z \/ r = 112%Z ->
    exists i j v, optarg g' = Some (i, j) /\ string_at argv (i, j) = Some v.
  Proof.
    intros g r g' B H Hr. destruct (getopt_cases _ _ _ _ B H) as [[-> _]|(j & g0 & D & O & N & L & Q)]; [destruct Hr; discriminate|].
    unfold decide_option in D. cbn [fst snd] in D. destruct (char_at argv (optind g, j)) as [c|] eqn:C; [|discriminate]. opened.
    destruct ((c =? 58) || _); opened.
    { destruct (char_at argv (optind g, S j)); [|discriminate]. opened; injection D as <- _. destruct Hr; discriminate. }
    destruct (search_character sc c letters_of_main) as [v|] eqn:V; [|discriminate]. opened. destruct (nth_error (letters_of_main ++ [0]) (S v)) as [o|] eqn:OV; [|discriminate]. opened.
    destruct (char_at argv (optind g, S j)) as [d|] eqn:D1; [|discriminate]. opened. destruct (char_inv _ _ _ D1) as (t & T & J & _).
    assert (OC : c = 100 \/ c = 112 -> o = 58).
    { intros Q1. unfold search_character in V. destruct sc, Q1; subst c; cbv in V; injection V as <-; cbv in OV; congruence. }
    assert (S1 : string_at argv (optind g, S j) = Some (skipn (S j) t)).
    { unfold string_at. cbn [fst snd]. rewrite T. cbn [obind]. apply Nat.leb_le in J. now rewrite J. }
    destruct (N.eqb_spec o 58) as [->|NO]; cbn [negb] in D.
    - destruct (negb (d =? 0)).
      + opened; injection D as <- <-. exists (optind g), (S j), (skipn (S j) t). split; [reflexivity|exact S1].
      + cbn [optind set_optind set_optopt] in D. destruct (Nat.leb_spec (length argv) (S (optind g0))) as [M|M]; [opened; injection D as <- _; destruct Hr; discriminate|].
        opened; injection D as <- <-. destruct (nth_error argv (S (optind g0))) as [u|] eqn:U; [|apply nth_error_None in U; lia].
        exists (S (optind g0)), 0%nat, u. split; [reflexivity|]. unfold string_at. cbn [fst snd]. rewrite U. reflexivity.
    - opened; injection D as D _. contradiction NO. apply OC. lia.
  Qed.

  Lemma placed_start : placed getopt_start.
  Proof. split; [cbn [getopt_start optind]; lia|exact I]. Qed.
  Lemma remaining_start : (remaining getopt_start <= size_of argv)%nat.
  Proof. apply size_skipn_le. Qed.

  (* what main does with what hmactools_getopt returned *)
  Definition turn (n : nat) (r : Z) (g : getopt_state) (size types : option (list N)) : option command :=
    if (r =? -1)%Z then
      if Nat.eqb (optind g) (length argv) then Some (Exit 1)
      else source <-? nth_error argv (optind g); Some (Run size types source)
    else if (r =? 100)%Z then p <-? optarg g; v <-? string_at argv p; main_options n sc argv g size (Some v)
    else if (r =? 104)%Z then Some (Exit 0)
    else if (r =? 112)%Z then p <-? optarg g; v <-? string_at argv p; main_options n sc argv g (Some v) types
    else if (r =? 118)%Z then main_options n sc argv g size types
    else if (r =? 86)%Z then Some (Exit 0)
    else v <-? nth_error argv (optind g - 1); Some (Exit 1).
  Lemma options_turn : forall n g size types, main_options (S n) sc argv g size types =
    match hmactools_getopt sc argv letters_of_main g with Some (r, g') => turn n r g' size types | None => None end.
  Proof. intros. cbn [main_options]. fold letters_of_main. destruct (hmactools_getopt sc argv letters_of_main g) as [[r g']|]; reflexivity. Qed.
End Options.
