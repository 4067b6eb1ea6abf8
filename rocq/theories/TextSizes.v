(* The text of byte_size_string_convert does what ToolStrings.v says. *)
From Coq Require Import Arith NArith ZArith List Lia Bool String.
From Verif Require Import Words Spec Machine Context Hash ToolStrings CText TextAll TextTools ToolCalls.
From Verif Require Import Vocab MachineFacts WordFacts ContextFacts DigestFacts HashFacts HmacFacts TextFacts TextContext TextUpdate TextLoops TextSteps TextHash TextHmac
  TextDigest.
Import ListNotations.
Open Scope string_scope.
Open Scope list_scope.
Open Scope N_scope.

(* ------------------------------------------------------------- switch, &&, || and break *)

Fixpoint pick (z : Z) (cs : list (list Z * stmt)) : option stmt :=
  match cs with [] => None | c :: t => if existsb (Z.eqb z) (fst c) then Some (snd c) else pick z t end.

Lemma exec_break : forall E P call fuel a l s f l' s', exec E P call fuel (SSeq a SBreak) l s = Done (f, l') s' -> f <> FNext.
Proof.
  intros E P call fuel a l s f l' s' H. cbn [exec] in H. unfold bind, ret in H.
  destruct (exec E P call fuel a l s) as [[g l1] s1|]; [|discriminate]. cbn [fst snd] in H. destruct g; inversion H; discriminate.
Qed.

Lemma den_switch : forall E P call fuel T e cs l (K : flow -> locals -> M T) s v z,
  eval E P call e l s = Done (v, l) s -> chosen v = Some z -> Forall (fun c => exists a, snd c = SSeq a SBreak) cs ->
  @den E P call fuel T (SSwitch e cs) l K s =
  match pick z cs with
  | Some st => @den E P call fuel T st l (fun f l' => match f with FBreak => K FNext l' | _ => K f l' end) s
  | None => K FNext l s
  end.
Proof.
  intros E P call fuel T e cs l K s v z H1 H2 H3. unfold den at 1. cbn [exec]. unfold bind at 1. rewrite H1. cbn [fst snd].
  unfold bind at 1, lift. rewrite H2. unfold ret at 1. clear H1 H2.
  induction H3 as [|c t (a & Hc) Ht IH]; [reflexivity|]. cbn [pick]. unfold bind at 1.
  cbn [orb]. destruct (existsb (Z.eqb z) (fst c)) eqn:X.
  - unfold bind at 1. unfold den. rewrite Hc.
    destruct (exec E P call fuel (a;- SBreak) l s) as [[f l'] s'|] eqn:Q; [|reflexivity].
    pose proof (exec_break _ _ _ _ _ _ _ _ _ _ Q) as NF. cbn [fst snd]. destruct f; [congruence|reflexivity|reflexivity|reflexivity].
  - unfold bind at 1 in IH. exact IH.
Qed.

Lemma ev_or : forall E P call a b l s x y,
  eval E P call a l s = Done (truth x, l) s -> (x = false -> eval E P call b l s = Done (truth y, l) s) ->
  eval E P call (ELogOr a b) l s = Done (truth (x || y), l) s.
Proof.
  intros E P call a b l s x y H1 H2. cbn [eval]. unfold bind. rewrite H1. cbn [fst snd]. rewrite test_truth. unfold lift, ret.
  destruct x; [reflexivity|]. rewrite H2 by reflexivity. cbn [fst snd]. rewrite test_truth. reflexivity.
Qed.
Lemma ev_and : forall E P call a b l s x y,
  eval E P call a l s = Done (truth x, l) s -> (x = true -> eval E P call b l s = Done (truth y, l) s) ->
  eval E P call (ELogAnd a b) l s = Done (truth (x && y), l) s.
Proof.
  intros E P call a b l s x y H1 H2. cbn [eval]. unfold bind. rewrite H1. cbn [fst snd]. rewrite test_truth. unfold lift, ret.
  destruct x; [|reflexivity]. rewrite H2 by reflexivity. cbn [fst snd]. rewrite test_truth. reflexivity.
Qed.
Lemma ev_or_undef : forall E P call a b l s, eval E P call a l s = Undef -> eval E P call (ELogOr a b) l s = Undef.
Proof. intros. cbn [eval]. unfold bind. rewrite H. reflexivity. Qed.
Lemma ev_and_undef : forall E P call a b l s, eval E P call a l s = Undef -> eval E P call (ELogAnd a b) l s = Undef.
Proof. intros. cbn [eval]. unfold bind. rewrite H. reflexivity. Qed.
Lemma ev_bin_undef : forall E P call o a b l s, eval E P call a l s = Undef -> eval E P call (EBin o a b) l s = Undef.
Proof. intros. cbn [eval]. unfold bind. rewrite H. reflexivity. Qed.
Lemma if_undef : forall E P call fuel T c X Y l (K : flow -> locals -> M T) s, eval E P call c l s = Undef ->
  @den E P call fuel T (SIf c X Y) l K s = Undef.
Proof. intros. rewrite den_if, H. reflexivity. Qed.
Lemma den_break : forall E P call fuel T l (K : flow -> locals -> M T) s, @den E P call fuel T SBreak l K s = K FBreak l s.
Proof. reflexivity. Qed.

(* ------------------------------------------------------------- characters *)

Lemma char_promote : forall sg vb c, promote (char_value (tools_text sg vb) c) = VS R32 (cz sg c).
Proof. intros [] vb c; reflexivity. Qed.
Lemma char_chosen : forall sg vb c, chosen (char_value (tools_text sg vb) c) = Some (cz sg c).
Proof. intros [] vb c; reflexivity. Qed.
Lemma cz_eqb : forall sg c k, c < 256 -> k < 128 -> (cz sg c =? Z.of_N k)%Z = (c =? k).
Proof.
  intros sg c k Hc Hk. unfold cz. destruct sg; [destruct (N.ltb_spec c 128)|];
    destruct (Z.eqb_spec (Z.of_N c) (Z.of_N k)); try destruct (Z.eqb_spec (Z.of_N c - 256) (Z.of_N k)); destruct (N.eqb_spec c k); lia.
Qed.
Lemma cz_inj : forall sg c d, c < 256 -> d < 256 -> (cz sg c =? cz sg d)%Z = (c =? d).
Proof.
  intros sg c d Hc Hd. destruct (N.eqb_spec c d) as [->|Hne]; [apply Z.eqb_refl|]. apply Z.eqb_neq. unfold cz.
  destruct sg; [|lia]. destruct (N.ltb_spec c 128), (N.ltb_spec d 128); lia.
Qed.
Lemma cz_not_digit : forall sg c, c < 256 -> ((cz sg c <? 48) || (57 <? cz sg c))%Z = negb (is_digit c).
Proof.
  intros sg c Hc. unfold cz, is_digit.
  destruct sg; [destruct (N.ltb_spec c 128)|]; destruct (N.leb_spec 48 c), (N.leb_spec c 57);
    repeat match goal with |- context [Z.ltb ?a ?b] => destruct (Z.ltb_spec a b) end; cbn [orb andb negb]; try reflexivity; lia.
Qed.
Lemma cz_digit : forall sg c, c < 256 -> ((48 <=? cz sg c) && (cz sg c <=? 57))%Z = is_digit c.
Proof.
  intros sg c Hc. unfold cz, is_digit.
  destruct sg; [destruct (N.ltb_spec c 128)|]; destruct (N.leb_spec 48 c), (N.leb_spec c 57);
    repeat match goal with |- context [Z.leb ?a ?b] => destruct (Z.leb_spec a b) end; cbn [orb andb negb]; try reflexivity; lia.
Qed.
Lemma is_digit_range : forall c, is_digit c = true -> 48 <= c <= 57.
Proof. intros c H. apply andb_prop in H as (H1 & H2). apply N.leb_le in H1, H2. lia. Qed.
Lemma cz_of_digit : forall sg c, is_digit c = true -> cz sg c = Z.of_N c.
Proof.
  intros sg c H. apply is_digit_range in H. unfold cz. destruct sg; [|reflexivity]. destruct (N.ltb_spec c 128); [reflexivity|lia].
Qed.

Lemma char_literal : forall E sg vb call l s k, (0 <= k < 128)%Z ->
  exists v, eval E (tools_text sg vb) call (EChar (EInt k)) l s = Done (v, l) s /\ promote v = VS R32 k.
Proof.
  intros E sg vb call l s k Hk. cbn [eval]. unfold bind, ret. cbn [fst snd tools_text p_char convert].
  destruct sg.
  - exists (VS R8 k). split; [|reflexivity]. cbn [convert to_signed rank_eqb option_map lift].
    change (2 ^ Z.of_N (bits E R8))%Z with 256%Z. change (2 ^ Z.of_N (bits E R8 - 1))%Z with 128%Z.
    rewrite Z.mod_small by lia. replace (k <? 128)%Z with true by (symmetry; apply Z.ltb_lt; lia). reflexivity.
  - exists (VU R8 (Z.to_N k)). cbn [convert]. rewrite tu_byte by lia. split; [reflexivity|]. cbn [promote]. rewrite Z2N.id by lia. reflexivity.
Qed.

Lemma byte_wrap : forall z, (0 <= z mod 256 < 256)%Z.
Proof. intros z. apply Z.mod_pos_bound. lia. Qed.
Lemma char_of_int : forall E sg vb call l s x z, lget l x = Some (VS R32 z) ->
  exists v, eval E (tools_text sg vb) call (EChar (EVar x)) l s = Done (v, l) s /\ promote v = VS R32 (cz sg (Z.to_N (z mod 256))).
Proof.
  intros E sg vb call l s x z H. cbn [eval]. rewrite H. unfold bind, ret. cbn [fst snd tools_text p_char convert].
  pose proof (byte_wrap z) as B. destruct sg.
  - cbn [convert to_signed rank_eqb option_map lift]. eexists. split; [reflexivity|]. cbn [promote]. f_equal.
    change (2 ^ Z.of_N (bits E R8))%Z with 256%Z. change (2 ^ Z.of_N (bits E R8 - 1))%Z with 128%Z. unfold cz.
    destruct (Z.ltb_spec (z mod 256) 128), (N.ltb_spec (Z.to_N (z mod 256)) 128); lia.
  - cbn [convert to_unsigned rank_eqb option_map lift]. eexists. split; [reflexivity|]. unfold cz. reflexivity.
Qed.

Lemma nth_skip : forall A (l : list A) i k, nth_error (skipn i l) k = nth_error l (i + k).
Proof. induction l as [|x l IH]; intros [|i] k; try reflexivity; [destruct k; reflexivity|apply IH]. Qed.

Lemma view_read : forall p s str k, view p s = Done str s ->
  read_byte (ptr_add p k) s = match aget str (N.to_nat k) with Some c => Done c s | None => Undef end.
Proof.
  intros p s str k H. unfold read_byte, bind. unfold view in H |- *. unfold ptr_add. cbn [fst snd].
  destruct (get_obj s (fst p)) as [[l| |]|]; try discriminate.
  destruct (N.leb_spec (snd p) (N.of_nat (List.length l))) as [Hp|]; [|discriminate]. injection H as <-.
  unfold aget. rewrite nth_skip.
  destruct (N.leb_spec (snd p + k) (N.of_nat (List.length l))) as [Hk|Hk].
  - rewrite nth_skip, Nat.add_0_r. replace (N.to_nat (snd p + k)) with (N.to_nat (snd p) + N.to_nat k)%nat by lia.
    unfold lift, ret. destruct (nth_error l (N.to_nat (snd p) + N.to_nat k)); reflexivity.
  - replace (nth_error l (N.to_nat (snd p) + N.to_nat k)) with (@None N); [reflexivity|]. symmetry. apply nth_error_None. lia.
Qed.

(* ------------------------------------------------------------- the text *)

Notation CH := (EIndex (EVar "byte_size_string") (EVar "byte_size_string_iterator")).
Notation IT := (EVar "byte_size_string_iterator").
Notation not_digit := (ELogOr (EBin OLt CH (EChar (EInt 48))) (EBin OGt CH (EChar (EInt 57)))).
Notation a_digit := (ELogAnd (EBin OGe CH (EChar (EInt 48))) (EBin OLe CH (EChar (EInt 57)))).
Notation more := (EBin OLt IT (EVar "byte_size_string_length")).

Section Convert.
  Variables (E : env) (sg vb : bool) (lp : option Z) (sc : bool) (fuel : nat).
  Notation P := (tools_text sg vb).
  Notation call := (tool_call E lp sc).
  Notation ev := (eval E P call).
  Variables (p : ptr) (str : list N) (len : N) (e : bool) (s : state).
  Hypothesis Hv : view p s = Done str s.
  Hypothesis Hb : Forall is_byte str.
  Hypothesis Hl : N.of_nat (List.length str) < size_mod E.

  Definition cl (sv : val) (i : nat) (b : N) (f r d u : Z) : locals :=
    [("byte_size_string", VChars p); ("byte_size_string_length", VU RSz len); ("size", sv); ("error", v_error e);
     ("byte_size_string_iterator", VU RSz (N.of_nat i)); ("byte_size", VU R64 b); ("factor", VS R8 f); ("remainder", VS R8 r);
     ("decimal_point", VS R32 d); ("units", VS R32 u)].

  Lemma char_byte : forall i c, aget str i = Some c -> c < 256 /\ (i < List.length str)%nat.
  Proof.
    intros i c H. split; [|apply nth_error_Some; unfold aget in H; congruence].
    rewrite Forall_forall in Hb. apply Hb. eapply nth_error_In. exact H.
  Qed.

  Lemma ch_at : forall x v i, (exists l, x = l) -> ev v x s = Done (VU RSz (N.of_nat i), x) s -> lget x "byte_size_string" = Some (VChars p) ->
    ev (EIndex (EVar "byte_size_string") v) x s = match aget str i with Some c => Done (char_value P c, x) s | None => Undef end.
  Proof.
    intros x v i _ H1 H2. cbn [eval]. rewrite H2. unfold bind, ret. cbn [fst snd]. rewrite H1. cbn [fst snd amount lift]. unfold ret.
    cbn [index lift]. unfold ret. cbn [load_at]. unfold bind. rewrite (view_read _ _ _ _ Hv), Nat2N.id.
    destruct (aget str i); reflexivity.
  Qed.
  Lemma ch : forall sv i b f r d u, ev CH (cl sv i b f r d u) s =
    match aget str i with Some c => Done (char_value P c, cl sv i b f r d u) s | None => Undef end.
  Proof. intros. apply ch_at; [eauto|reflexivity|reflexivity]. Qed.

  Lemma ch_bin : forall sv i b f r d u o k c x, o <> OShl -> o <> OShr -> (0 <= k < 128)%Z -> aget str i = Some c ->
    arith E o (PS R32 (cz sg c) k) = Some x ->
    ev (EBin o CH (EChar (EInt k))) (cl sv i b f r d u) s = Done (x, cl sv i b f r d u) s.
  Proof.
    intros sv i b f r d u o k c x O1 O2 Hk Hc Hx. destruct (char_literal E sg vb call (cl sv i b f r d u) s k Hk) as (v & H1 & H2).
    eapply ev_bin; [rewrite ch, Hc; reflexivity|exact H1|]. rewrite (bin_int E o _ _ _ _ (char_promote sg vb c) H2 O1 O2). exact Hx.
  Qed.
  Lemma ch_none : forall sv i b f r d u o x, aget str i = None -> ev (EBin o CH x) (cl sv i b f r d u) s = Undef.
  Proof. intros. apply ev_bin_undef. rewrite ch, H. reflexivity. Qed.

  Lemma not_digit_run : forall sv i b f r d u c, aget str i = Some c ->
    ev not_digit (cl sv i b f r d u) s = Done (truth (negb (is_digit c)), cl sv i b f r d u) s.
  Proof.
    intros sv i b f r d u c Hc. rewrite <- (cz_not_digit sg c) by (eapply char_byte; exact Hc).
    apply ev_or; [|intros _]; (eapply ch_bin; [discriminate|discriminate|lia|exact Hc|reflexivity]).
  Qed.
  Lemma digit_run : forall sv i b f r d u c, aget str i = Some c ->
    ev a_digit (cl sv i b f r d u) s = Done (truth (is_digit c), cl sv i b f r d u) s.
  Proof.
    intros sv i b f r d u c Hc. rewrite <- (cz_digit sg c) by (eapply char_byte; exact Hc).
    apply ev_and; [|intros _]; (eapply ch_bin; [discriminate|discriminate|lia|exact Hc|reflexivity]).
  Qed.
  Lemma is_run : forall sv i b f r d u c k, aget str i = Some c -> k < 128 ->
    ev (EBin OEq CH (EChar (EInt (Z.of_N k)))) (cl sv i b f r d u) s = Done (truth (c =? k), cl sv i b f r d u) s.
  Proof.
    intros sv i b f r d u c k Hc Hk. rewrite <- (cz_eqb sg c k) by (trivial; eapply char_byte; exact Hc).
    eapply ch_bin; [discriminate|discriminate|lia|exact Hc|reflexivity].
  Qed.
  Lemma more_run : forall sv i b f r d u, ev more (cl sv i b f r d u) s = Done (truth (N.of_nat i <? len), cl sv i b f r d u) s.
  Proof. reflexivity. Qed.

  Variable T : Type.
  Notation dn := (@den E P call fuel T).

  Lemma step_run : forall sv i b f r d u z k (K : flow -> locals -> M T), (0 <= z < 128)%Z -> z = Z.of_nat k -> N.of_nat (i + k) < size_mod E ->
    dn (SOp OAdd IT (EInt z)) (cl sv i b f r d u) K s = K FNext (cl sv (i + k) b f r d u) s.
  Proof.
    intros sv i b f r d u z k K Hz -> Hk. rewrite den_op. cbn [eval]. change (lget (cl sv i b f r d u) "byte_size_string_iterator") with (Some (VU RSz (N.of_nat i))).
    unfold ret. cbn [fst snd].
    assert (B : binary E OAdd (VU RSz (N.of_nat i)) (VS R32 (Z.of_nat k)) = Some (VU RSz (N.of_nat (i + k)))).
    { cbn [binary usual promote]. change (rank_leb R32 RSz) with true. cbv iota.
      replace (Z.of_nat k) with (Z.of_N (N.of_nat k)) by lia. rewrite lit_size by lia. cbn [arith]. rewrite uadd_size by lia. do 2 f_equal. lia. }
    rewrite B. reflexivity.
  Qed.
  Lemma inc_run : forall sv i b f r d u (K : flow -> locals -> M T), N.of_nat (S i) < size_mod E ->
    dn (SOp OAdd IT (EInt 1)) (cl sv i b f r d u) K s = K FNext (cl sv (S i) b f r d u) s.
  Proof. intros. rewrite (step_run _ _ _ _ _ _ _ 1 1) by (lia || reflexivity). replace (i + 1)%nat with (S i) by lia. reflexivity. Qed.

  (* the value of a digit *)
  Lemma value_run : forall sv i b f r d u c, aget str i = Some c -> is_digit c = true ->
    ev (EBin OSub CH (EChar (EInt 48))) (cl sv i b f r d u) s = Done (VS R32 (Z.of_N (c - 48)), cl sv i b f r d u) s.
  Proof.
    intros sv i b f r d u c Hc Hd. pose proof (is_digit_range _ Hd). eapply ch_bin; [discriminate|discriminate|lia|exact Hc|].
    cbn [arith]. rewrite (cz_of_digit _ _ Hd), in_range_int by lia. do 2 f_equal. lia.
  Qed.

  Definition number_body : stmt :=
    SIf not_digit SBreak SSkip ;-
    SOp OMul (EVar "byte_size") (EInt 10) ;-
    SOp OAdd (EVar "byte_size") (EBin OSub CH (EChar (EInt 48))) ;-
    SOp OAdd IT (EInt 1).

  Lemma number_loop : forall sv f r d u (K : flow -> locals -> M T) g n i b, (g + i = S (List.length str))%nat -> (i <= List.length str)%nat -> (g <= n)%nat ->
    @dloop E P call fuel T n more number_body (cl sv i b f r d u) K s =
    match scan_number g str len i b with Some (i, b) => K FNext (cl sv i b f r d u) s | None => Undef end.
  Proof.
    intros sv f r d u K. induction g as [|g IH]; intros n i b Hg Hi Hn; [lia|]. destruct n as [|n]; [lia|]. cbn [scan_number].
    destruct (N.of_nat i <? len) eqn:C.
    2: { rewrite dloop_end by (rewrite more_run, C; reflexivity). reflexivity. }
    rewrite dloop_step by (rewrite more_run, C; reflexivity). unfold number_body at 1. rewrite den_seq.
    destruct (aget str i) as [c|] eqn:Hc.
    2: { apply if_undef, ev_or_undef, ch_none, Hc. }
    cbn [obind]. destruct (char_byte _ _ Hc) as (Vc & Li).
    rewrite (decided _ _ _ _ _ _ _ _ _ _ _ _ (not_digit_run sv i b f r d u c Hc)). destruct (is_digit c) eqn:D; cbn [negb].
    2: { rewrite den_break. reflexivity. }
    rewrite den_skip, den_seq.
    assert (M1 : forall K' : flow -> locals -> M T, dn (SOp OMul (EVar "byte_size") (EInt 10)) (cl sv i b f r d u) K' s = K' FNext (cl sv i ((b * 10) mod 2 ^ 64) f r d u) s).
    { reflexivity. }
    rewrite M1, den_seq.
    assert (M2 : forall x (K' : flow -> locals -> M T), dn (SOp OAdd (EVar "byte_size") (EBin OSub CH (EChar (EInt 48)))) (cl sv i x f r d u) K' s =
                        K' FNext (cl sv i ((x + (c - 48)) mod 2 ^ 64) f r d u) s).
    { intros x K'. rewrite den_op. change (ev (EVar "byte_size") (cl sv i x f r d u) s) with (Done (VU R64 x, cl sv i x f r d u) s). cbn [fst snd].
      rewrite (value_run _ _ _ _ _ _ _ _ Hc D). cbn [fst snd]. cbn [binary usual promote]. change (rank_leb R32 R64) with true. cbv iota.
      apply is_digit_range in D. rewrite tu_int, N2Z.id by (reflexivity || lia). reflexivity. }
    rewrite M2, inc_run by lia. apply IH; lia.
  Qed.

  Definition skip_body : stmt := SIf not_digit SBreak SSkip ;- SOp OAdd IT (EInt 1).

  Lemma skip_loop : forall sv b f r d u (K : flow -> locals -> M T) g n i, (S (List.length str) <= g + i)%nat -> (i <= List.length str)%nat -> (g <= n)%nat ->
    @dloop E P call fuel T n more skip_body (cl sv i b f r d u) K s =
    match skip_digits g str len i with Some i => K FNext (cl sv i b f r d u) s | None => Undef end.
  Proof.
    intros sv b f r d u K. induction g as [|g IH]; intros n i Hg Hi Hn; [lia|]. destruct n as [|n]; [lia|]. cbn [skip_digits].
    destruct (N.of_nat i <? len) eqn:C.
    2: { rewrite dloop_end by (rewrite more_run, C; reflexivity). reflexivity. }
    rewrite dloop_step by (rewrite more_run, C; reflexivity). unfold skip_body at 1. rewrite den_seq.
    destruct (aget str i) as [c|] eqn:Hc.
    2: { apply if_undef, ev_or_undef, ch_none, Hc. }
    cbn [obind]. destruct (char_byte _ _ Hc) as (Vc & Li).
    rewrite (decided _ _ _ _ _ _ _ _ _ _ _ _ (not_digit_run sv i b f r d u c Hc)). destruct (is_digit c) eqn:D; cbn [negb].
    2: { rewrite den_break. reflexivity. }
    rewrite den_skip, inc_run by lia. apply IH; lia.
  Qed.

  Hypothesis Hfuel : (S (List.length str) <= fuel)%nat.

  Definition fraction_text : stmt :=
    SIf (EBin OEq CH (EChar (EVar "decimal_point"))) (
      SOp OAdd IT (EInt 1) ;-
      SIf a_digit (
        SAssign (EVar "remainder") (ECast true R8 (EBin OSub CH (EChar (EInt 48)))) ;-
        SOp OAdd IT (EInt 1)) SSkip ;-
      SOp OMul (EVar "remainder") (EInt 10) ;-
      SIf a_digit (
        SOp OAdd (EVar "remainder") (ECast true R8 (EBin OSub CH (EChar (EInt 48)))) ;-
        SOp OAdd IT (EInt 1)) SSkip ;-
      SWhile more skip_body) SSkip.

  Lemma small_signed : forall z, (-128 <= z < 128)%Z -> to_signed E R8 (VS R32 z) = Some z.
  Proof.
    intros z Hz. cbn [to_signed rank_eqb]. f_equal. change (2 ^ Z.of_N (bits E R8))%Z with 256%Z. change (2 ^ Z.of_N (bits E R8 - 1))%Z with 128%Z.
    destruct (Z_lt_le_dec z 0) as [H|H].
    - replace (z mod 256)%Z with (z + 256)%Z; [destruct (Z.ltb_spec (z + 256) 128); lia|].
      apply Z.mod_unique with (-1)%Z; lia.
    - rewrite Z.mod_small by lia. destruct (Z.ltb_spec z 128); lia.
  Qed.
  Lemma value_small : forall sv i b f r d u c, aget str i = Some c -> is_digit c = true ->
    ev (ECast true R8 (EBin OSub CH (EChar (EInt 48)))) (cl sv i b f r d u) s = Done (VS R8 (Z.of_N (c - 48)), cl sv i b f r d u) s.
  Proof.
    intros sv i b f r d u c Hc Hd. eapply ev_cast; [exact (value_run _ _ _ _ _ _ _ _ Hc Hd)|]. apply is_digit_range in Hd.
    apply conv_s, small_signed. lia.
  Qed.

  Lemma fraction_run : forall sv i b f d u (K : flow -> locals -> M T),
    dn fraction_text (cl sv i b f (-1) d u) K s =
    match scan_fraction str len (Z.to_N (d mod 256)) i with Some (i, r) => K FNext (cl sv i b f r d u) s | None => Undef end.
  Proof.
    intros sv i b f d u K. unfold fraction_text, scan_fraction.
    destruct (aget str i) as [c|] eqn:Hc.
    2: { apply if_undef, ch_none, Hc. }
    cbn [obind]. destruct (char_byte _ _ Hc) as (Vc & Li).
    assert (C : ev (EBin OEq CH (EChar (EVar "decimal_point"))) (cl sv i b f (-1) d u) s = Done (truth (c =? Z.to_N (d mod 256)), cl sv i b f (-1) d u) s).
    { destruct (char_of_int E sg vb call (cl sv i b f (-1) d u) s "decimal_point" d eq_refl) as (v & H1 & H2).
      eapply ev_bin; [rewrite ch, Hc; reflexivity|exact H1|]. rewrite (bin_int E OEq _ _ _ _ (char_promote sg vb c) H2) by discriminate.
      cbn [arith]. rewrite cz_inj; [reflexivity|exact Vc|]. pose proof (byte_wrap d). lia. }
    rewrite (decided _ _ _ _ _ _ _ _ _ _ _ _ C). clear C. destruct (c =? Z.to_N (d mod 256)); cbn [negb]; [|apply den_skip].
    rewrite den_seq, inc_run by lia. rewrite den_seq. clear Hc Vc c.
    destruct (aget str (S i)) as [c|] eqn:Hc.
    2: { apply if_undef, ev_and_undef, ch_none, Hc. }
    cbn [obind]. destruct (char_byte _ _ Hc) as (Vc & Lj).
    rewrite (decided _ _ _ _ _ _ _ _ _ _ _ _ (digit_run sv (S i) b f (-1) d u c Hc)).
    assert (Rest : forall i r, (i <= List.length str)%nat -> (-1 <= r <= 9)%Z -> 
      dn (SOp OMul (EVar "remainder") (EInt 10) ;-
          SIf a_digit (SOp OAdd (EVar "remainder") (ECast true R8 (EBin OSub CH (EChar (EInt 48)))) ;- SOp OAdd IT (EInt 1)) SSkip ;-
          SWhile more skip_body) (cl sv i b f r d u) K s =
      match (c <-? aget str i;
             let '(i0, remainder) := if is_digit c then (S i, (r * 10 + Z.of_N (c - 48))%Z) else (i, (r * 10)%Z) in
             i <-? skip_digits (S (List.length str)) str len i0; Some (i, remainder)) with
      | Some (i, r) => K FNext (cl sv i b f r d u) s | None => Undef end).
    { clear i c Hc Li Vc Lj. intros i r Li Hr. rewrite den_seq.
      assert (M1 : forall K' : flow -> locals -> M T, dn (SOp OMul (EVar "remainder") (EInt 10)) (cl sv i b f r d u) K' s = K' FNext (cl sv i b f (r * 10) d u) s).
      { intros K'. rewrite den_op. cbn [eval]. change (lget (cl sv i b f r d u) "remainder") with (Some (VS R8 r)). unfold ret. cbn [fst snd].
        cbn [binary usual promote rank_max arith]. rewrite in_range_int by lia. cbn [assign].
        change (lget (cl sv i b f r d u) "remainder") with (Some (VS R8 r)). unfold bind. rewrite small_signed by lia. reflexivity. }
      rewrite M1, den_seq. destruct (aget str i) as [c|] eqn:Hc.
      2: { apply if_undef, ev_and_undef, ch_none, Hc. }
      cbn [obind]. destruct (char_byte _ _ Hc) as (Vc & Lj).
      rewrite (decided _ _ _ _ _ _ _ _ _ _ _ _ (digit_run sv i b f (r * 10) d u c Hc)). destruct (is_digit c) eqn:D.
      - rewrite den_seq.
        assert (M2 : forall K' : flow -> locals -> M T, dn (SOp OAdd (EVar "remainder") (ECast true R8 (EBin OSub CH (EChar (EInt 48))))) (cl sv i b f (r * 10) d u) K' s =
             K' FNext (cl sv i b f (r * 10 + Z.of_N (c - 48)) d u) s).
        { intros K'. rewrite den_op. change (ev (EVar "remainder") (cl sv i b f (r * 10) d u) s) with (Done (VS R8 (r * 10), cl sv i b f (r * 10) d u) s).
          cbn [fst snd]. rewrite (value_small _ _ _ _ _ _ _ _ Hc D). apply is_digit_range in D. cbn [fst snd].
          cbn [binary usual promote rank_max arith]. rewrite in_range_int by lia. cbn [assign].
          change (lget (cl sv i b f (r * 10) d u) "remainder") with (Some (VS R8 (r * 10))). unfold bind. rewrite small_signed by lia. reflexivity. }
        rewrite M2, inc_run by lia. rewrite den_while. unfold skip_body. rewrite (skip_loop _ _ _ _ _ _ _ (S (List.length str))) by lia.
        destruct (skip_digits (S (List.length str)) str len (S i)); reflexivity.
      - rewrite den_skip, den_while. rewrite (skip_loop _ _ _ _ _ _ _ (S (List.length str))) by lia.
        destruct (skip_digits (S (List.length str)) str len i); reflexivity. }
    destruct (is_digit c) eqn:D.
    - rewrite den_seq.
      assert (M2 : forall K' : flow -> locals -> M T, dn (SAssign (EVar "remainder") (ECast true R8 (EBin OSub CH (EChar (EInt 48))))) (cl sv (S i) b f (-1) d u) K' s =
             K' FNext (cl sv (S i) b f (Z.of_N (c - 48)) d u) s).
      { intros K'. rewrite den_assign. rewrite (value_small _ _ _ _ _ _ _ _ Hc D). reflexivity. }
      rewrite M2, inc_run by lia. pose proof (is_digit_range _ D). rewrite Rest by lia.
      destruct (aget str (S (S i))) as [c'|]; [cbn [obind]|reflexivity]. destruct (is_digit c'); reflexivity.
    - rewrite den_skip, Rest by lia. rewrite Hc. cbn [obind]. rewrite D. reflexivity.
  Qed.

  Definition space_text : stmt := SIf (EBin OEq CH (EChar (EInt 32))) (SOp OAdd IT (EInt 1)) SSkip.
  Lemma space_run : forall sv i b f r d u (K : flow -> locals -> M T),
    dn space_text (cl sv i b f r d u) K s =
    match aget str i with Some c => K FNext (cl sv (if c =? 32 then S i else i) b f r d u) s | None => Undef end.
  Proof.
    intros sv i b f r d u K. unfold space_text. destruct (aget str i) as [c|] eqn:Hc.
    2: { apply if_undef, ch_none, Hc. }
    destruct (char_byte _ _ Hc) as (Vc & Li).
    rewrite (decided _ _ _ _ _ _ _ _ _ _ _ _ (is_run sv i b f r d u c 32 Hc eq_refl)).
    destruct (c =? 32); [apply inc_run; lia|apply den_skip].
  Qed.

  Definition pick_factor (k : Z) : stmt := SAssign (EVar "factor") (EInt k) ;- SBreak.
  Definition factor_text : stmt :=
    SSwitch CH [([107; 75]%Z, pick_factor 1); ([109; 77]%Z, pick_factor 2); ([103; 71]%Z, pick_factor 3); ([116; 84]%Z, pick_factor 4);
                ([112; 80]%Z, pick_factor 5); ([101; 69]%Z, pick_factor 6); ([122; 90]%Z, pick_factor 7); ([121; 89]%Z, pick_factor 8)].
  Lemma factor_run : forall sv i b r d u (K : flow -> locals -> M T),
    dn factor_text (cl sv i b 0 r d u) K s =
    match aget str i with Some c => K FNext (cl sv i b (Z.of_nat (factor_of c)) r d u) s | None => Undef end.
  Proof.
    intros sv i b r d u K. unfold factor_text. destruct (aget str i) as [c|] eqn:Hc.
    2: { unfold den. cbn [exec]. unfold bind. rewrite ch, Hc. reflexivity. }
    destruct (char_byte _ _ Hc) as (Vc & Li).
    rewrite (den_switch _ _ _ _ _ _ _ _ _ _ (char_value P c) (cz sg c)).
    2: { rewrite ch, Hc. reflexivity. }
    2: { apply char_chosen. }
    2: { repeat constructor; eexists; reflexivity. }
    assert (Ex : forall x y, x < 128 -> y < 128 -> existsb (Z.eqb (cz sg c)) [Z.of_N x; Z.of_N y] = (c =? x) || (c =? y)).
    { intros x y Hx Hy. cbn [existsb]. rewrite !cz_eqb, orb_false_r by assumption. reflexivity. }
    assert (Pf : forall k (K' : flow -> locals -> M T), (0 <= k <= 8)%Z -> dn (pick_factor k) (cl sv i b 0 r d u) K' s = K' FBreak (cl sv i b k r d u) s).
    { intros k K' Hk. unfold pick_factor. rewrite den_seq, den_assign. cbn [eval]. unfold ret. cbn [fst snd assign].
      change (lget (cl sv i b 0 r d u) "factor") with (Some (VS R8 0)). unfold bind. rewrite small_signed by lia. reflexivity. }
    unfold factor_of. cbn [pick fst snd].
    pose proof (Ex 107 75 eq_refl eq_refl) as X; cbn [Z.of_N] in X; rewrite X; clear X.
    destruct ((c =? 107) || (c =? 75)); [rewrite Pf by lia; reflexivity|].
    pose proof (Ex 109 77 eq_refl eq_refl) as X; cbn [Z.of_N] in X; rewrite X; clear X.
    destruct ((c =? 109) || (c =? 77)); [rewrite Pf by lia; reflexivity|].
    pose proof (Ex 103 71 eq_refl eq_refl) as X; cbn [Z.of_N] in X; rewrite X; clear X.
    destruct ((c =? 103) || (c =? 71)); [rewrite Pf by lia; reflexivity|].
    pose proof (Ex 116 84 eq_refl eq_refl) as X; cbn [Z.of_N] in X; rewrite X; clear X.
    destruct ((c =? 116) || (c =? 84)); [rewrite Pf by lia; reflexivity|].
    pose proof (Ex 112 80 eq_refl eq_refl) as X; cbn [Z.of_N] in X; rewrite X; clear X.
    destruct ((c =? 112) || (c =? 80)); [rewrite Pf by lia; reflexivity|].
    pose proof (Ex 101 69 eq_refl eq_refl) as X; cbn [Z.of_N] in X; rewrite X; clear X.
    destruct ((c =? 101) || (c =? 69)); [rewrite Pf by lia; reflexivity|].
    pose proof (Ex 122 90 eq_refl eq_refl) as X; cbn [Z.of_N] in X; rewrite X; clear X.
    destruct ((c =? 122) || (c =? 90)); [rewrite Pf by lia; reflexivity|].
    pose proof (Ex 121 89 eq_refl eq_refl) as X; cbn [Z.of_N] in X; rewrite X; clear X.
    destruct ((c =? 121) || (c =? 89)); [rewrite Pf by lia; reflexivity|]. reflexivity.
  Qed.
  Definition after_factor : stmt :=
    SIf (EBin OLt (EVar "factor") (EInt 0)) (
      SExpr (ECall "libcerror_error_set" [(EVar "error"); (EName "LIBCERROR_ERROR_DOMAIN_RUNTIME"); (EName "LIBCERROR_RUNTIME_ERROR_VALUE_OUT_OF_BOUNDS")]) ;-
      SReturn (EInt (-1)))
    (
      SIf (EBin OGt (EVar "factor") (EInt 1)) (SOp OAdd IT (EInt 1)) SSkip).
  Lemma after_factor_run : forall sv i b k r d u (K : flow -> locals -> M T), (i < List.length str)%nat ->
    dn after_factor (cl sv i b (Z.of_nat k) r d u) K s = K FNext (cl sv (if Nat.ltb 1 k then S i else i) b (Z.of_nat k) r d u) s.
  Proof.
    intros sv i b k r d u K Hi. unfold after_factor.
    assert (C1 : ev (EBin OLt (EVar "factor") (EInt 0)) (cl sv i b (Z.of_nat k) r d u) s = Done (truth (Z.of_nat k <? 0)%Z, cl sv i b (Z.of_nat k) r d u) s) by reflexivity.
    rewrite (decided _ _ _ _ _ _ _ _ _ _ _ _ C1). replace (Z.of_nat k <? 0)%Z with false by (symmetry; apply Z.ltb_ge; lia).
    assert (C2 : ev (EBin OGt (EVar "factor") (EInt 1)) (cl sv i b (Z.of_nat k) r d u) s = Done (truth (1 <? Z.of_nat k)%Z, cl sv i b (Z.of_nat k) r d u) s) by reflexivity.
    rewrite (decided _ _ _ _ _ _ _ _ _ _ _ _ C2). replace (1 <? Z.of_nat k)%Z with (Nat.ltb 1 k).
    2: { destruct (Nat.ltb_spec 1 k), (Z.ltb_spec 1 (Z.of_nat k)); lia. }
    destruct (Nat.ltb 1 k); [apply inc_run; lia|apply den_skip].
  Qed.

  Definition units_text : stmt :=
    SIf (EBin OGe IT (EVar "byte_size_string_length")) (
      SAssign (EVar "units") (EInt 1024))
    (
      SIf (ELogAnd (EBin OEq CH (EChar (EInt 105))) (EBin OEq (EIndex (EVar "byte_size_string") (EBin OAdd IT (EInt 1))) (EChar (EInt 66)))) (
        SAssign (EVar "units") (EInt 1024) ;-
        SOp OAdd IT (EInt 2))
      (
        SIf (EBin OEq CH (EChar (EInt 66))) (
          SAssign (EVar "units") (EInt 1000) ;-
          SOp OAdd IT (EInt 1))
        (
          SExpr (ECall "libcerror_error_set" [(EVar "error"); (EName "LIBCERROR_ERROR_DOMAIN_RUNTIME"); (EName "LIBCERROR_RUNTIME_ERROR_VALUE_OUT_OF_BOUNDS")]) ;-
          SReturn (EInt (-1))))).

  Lemma set_units : forall sv i b f r d u z (K : flow -> locals -> M T),
    dn (SAssign (EVar "units") (EInt z)) (cl sv i b f r d u) K s = K FNext (cl sv i b f r d z) s.
  Proof. reflexivity. Qed.

  Lemma units_run : forall sv i b f r d (K : flow -> locals -> M T) (R : Z -> M T), (i <= List.length str)%nat ->
    (forall s1, K (FReturn (VS R32 (-1))) (cl sv i b f r d 0) s1 = R (-1)%Z s1) ->
    dn units_text (cl sv i b f r d 0) K s =
    match scan_units str len i with
    | Some (Some (u, i)) => K FNext (cl sv i b f r d (Z.of_N u)) s
    | Some None => (r <- fail e E_RUNTIME_VALUE_OUT_OF_BOUNDS ;; R r) s
    | None => Undef
    end.
  Proof.
    intros sv i b f r d K R Hi HK. unfold units_text, scan_units.
    assert (C1 : ev (EBin OGe IT (EVar "byte_size_string_length")) (cl sv i b f r d 0) s = Done (truth (len <=? N.of_nat i), cl sv i b f r d 0) s) by reflexivity.
    rewrite (decided _ _ _ _ _ _ _ _ _ _ _ _ C1). destruct (len <=? N.of_nat i); [reflexivity|].
    destruct (aget str i) as [c|] eqn:Hc.
    2: { apply if_undef, ev_and_undef, ch_none, Hc. }
    cbn [obind]. destruct (char_byte _ _ Hc) as (Vc & Li).
    destruct (c =? 105) eqn:Ci.
    - destruct (aget str (S i)) as [c'|] eqn:Hc'.
      + destruct (char_byte _ _ Hc') as (Vc' & Lj). cbn [obind].
        assert (C2 : ev (ELogAnd (EBin OEq CH (EChar (EInt 105))) (EBin OEq (EIndex (EVar "byte_size_string") (EBin OAdd IT (EInt 1))) (EChar (EInt 66)))) (cl sv i b f r d 0) s =
                     Done (truth (true && (c' =? 66)), cl sv i b f r d 0) s).
        { apply ev_and; [etransitivity; [exact (is_run sv i b f r d 0 c 105 Hc eq_refl)|rewrite Ci; reflexivity]|]. intros _.
          destruct (char_literal E sg vb call (cl sv i b f r d 0) s 66 ltac:(lia)) as (v & H1 & H2).
          eapply ev_bin; [|exact H1|].
          - rewrite (ch_at _ _ (S i)); [rewrite Hc'; reflexivity|eauto| |reflexivity].
            eapply ev_bin; [reflexivity|reflexivity|]. cbn [binary usual promote]. change (rank_leb R32 RSz) with true. cbv iota.
            change 1%Z with (Z.of_N 1). rewrite lit_size by reflexivity. cbn [arith]. rewrite uadd_size by lia. do 2 f_equal. lia.
          - rewrite (bin_int E OEq _ _ _ _ (char_promote sg vb c') H2) by discriminate. cbn [arith].
            rewrite <- (cz_eqb sg c' 66) by (trivial; reflexivity). reflexivity. }
        rewrite (decided _ _ _ _ _ _ _ _ _ _ _ _ C2). cbn [andb]. destruct (c' =? 66).
        * rewrite den_seq, set_units, (step_run _ _ _ _ _ _ _ 2 2) by (lia || reflexivity). reflexivity.
        * assert (C3 : ev (EBin OEq CH (EChar (EInt 66))) (cl sv i b f r d 0) s = Done (truth (c =? 66), cl sv i b f r d 0) s) by exact (is_run sv i b f r d 0 c 66 Hc eq_refl).
      rewrite (decided _ _ _ _ _ _ _ _ _ _ _ _ C3).
          apply N.eqb_eq in Ci. subst c. change (105 =? 66) with false. cbv iota. eapply failed; [reflexivity|reflexivity|exact HK].
      + cbn [obind]. apply if_undef. cbn [eval]. unfold bind. pose proof (is_run sv i b f r d 0 c 105 Hc eq_refl) as Q. rewrite Ci in Q.
        change (Z.of_N 105) with 105%Z in Q. cbn [eval] in Q. unfold bind in Q. rewrite Q. clear Q. cbn [fst snd]. rewrite test_truth. unfold lift at 1, ret at 1. cbv iota.
        assert (X : ev (EIndex (EVar "byte_size_string") (EBin OAdd IT (EInt 1))) (cl sv i b f r d 0) s = Undef).
        { rewrite (ch_at _ _ (S i)); [rewrite Hc'; reflexivity|eauto| |reflexivity].
          eapply ev_bin; [reflexivity|reflexivity|]. cbn [binary usual promote]. change (rank_leb R32 RSz) with true. cbv iota.
          change 1%Z with (Z.of_N 1). rewrite lit_size by reflexivity. cbn [arith]. rewrite uadd_size by lia. do 2 f_equal. lia. }
        cbn [eval] in X. unfold bind in X. rewrite X. reflexivity.
    - assert (C2 : ev (ELogAnd (EBin OEq CH (EChar (EInt 105))) (EBin OEq (EIndex (EVar "byte_size_string") (EBin OAdd IT (EInt 1))) (EChar (EInt 66)))) (cl sv i b f r d 0) s =
                     Done (truth (false && false), cl sv i b f r d 0) s).
      { apply ev_and; [etransitivity; [exact (is_run sv i b f r d 0 c 105 Hc eq_refl)|rewrite Ci; reflexivity]|discriminate]. }
      rewrite (decided _ _ _ _ _ _ _ _ _ _ _ _ C2). cbn [andb].
      assert (C3 : ev (EBin OEq CH (EChar (EInt 66))) (cl sv i b f r d 0) s = Done (truth (c =? 66), cl sv i b f r d 0) s) by exact (is_run sv i b f r d 0 c 66 Hc eq_refl).
      rewrite (decided _ _ _ _ _ _ _ _ _ _ _ _ C3).
      destruct (c =? 66); [|eapply failed; [reflexivity|reflexivity|exact HK]].
      rewrite den_seq, set_units, inc_run by lia. reflexivity.
  Qed.

  Hypothesis Hfuel8 : (8 <= fuel)%nat.

  Lemma times_units : forall sv i b f r d u (K : flow -> locals -> M T), u < 2 ^ 31 ->
    dn (SOp OMul (EVar "byte_size") (EVar "units")) (cl sv i b f r d (Z.of_N u)) K s = K FNext (cl sv i ((b * u) mod 2 ^ 64) f r d (Z.of_N u)) s.
  Proof.
    intros sv i b f r d u K Hu. rewrite den_op.
    change (ev (EVar "byte_size") (cl sv i b f r d (Z.of_N u)) s) with (Done (VU R64 b, cl sv i b f r d (Z.of_N u)) s). cbn [fst snd].
    change (ev (EVar "units") (cl sv i b f r d (Z.of_N u)) s) with (Done (VS R32 (Z.of_N u), cl sv i b f r d (Z.of_N u)) s). cbn [fst snd].
    cbn [binary usual promote]. change (rank_leb R32 R64) with true. cbv iota. rewrite tu_int, N2Z.id by (reflexivity || lia). reflexivity.
  Qed.
  Lemma less_factor : forall sv i b k r d u (K : flow -> locals -> M T), (S k <= 8)%nat ->
    dn (SOp OSub (EVar "factor") (EInt 1)) (cl sv i b (Z.of_nat (S k)) r d u) K s = K FNext (cl sv i b (Z.of_nat k) r d u) s.
  Proof.
    intros sv i b k r d u K Hk. rewrite den_op.
    change (ev (EVar "factor") (cl sv i b (Z.of_nat (S k)) r d u) s) with (Done (VS R8 (Z.of_nat (S k)), cl sv i b (Z.of_nat (S k)) r d u) s). cbn [fst snd eval].
    unfold ret. cbn [fst snd binary usual promote rank_max arith]. rewrite in_range_int by lia. cbn [assign].
    change (lget (cl sv i b (Z.of_nat (S k)) r d u) "factor") with (Some (VS R8 (Z.of_nat (S k)))). unfold bind. rewrite small_signed by lia.
    replace (Z.of_nat (S k) - 1)%Z with (Z.of_nat k) by lia. reflexivity.
  Qed.

  Lemma scale_loop : forall sv i r d u (K : flow -> locals -> M T), u < 2 ^ 31 -> forall k n b, (k <= n)%nat -> (k <= 8)%nat ->
    @dloop E P call fuel T n (EBin OGt (EVar "factor") (EInt 0)) (SOp OMul (EVar "byte_size") (EVar "units") ;- SOp OSub (EVar "factor") (EInt 1))
      (cl sv i b (Z.of_nat k) r d (Z.of_N u)) K s = K FNext (cl sv i (scale k u b) 0 r d (Z.of_N u)) s.
  Proof.
    intros sv i r d u K Hu. induction k as [|k IH]; intros n b Hn H8.
    - rewrite dloop_end by reflexivity. reflexivity.
    - destruct n as [|n]; [lia|]. rewrite dloop_step.
      2: { change (Done (truth (0 <? Z.of_nat (S k))%Z, cl sv i b (Z.of_nat (S k)) r d (Z.of_N u)) s = Done (truth true, cl sv i b (Z.of_nat (S k)) r d (Z.of_N u)) s).
           replace (0 <? Z.of_nat (S k))%Z with true by (symmetry; apply Z.ltb_lt; lia). reflexivity. }
      rewrite den_seq, times_units by exact Hu. rewrite less_factor by lia. cbn [scale]. apply IH; lia.
  Qed.

  Definition scale_text (Y : stmt) : stmt :=
    SIf (EBin OGt (EVar "factor") (EInt 0)) (
      SIf (EBin OGt (EVar "remainder") (EInt 0)) (
        SOp OMul (EVar "byte_size") (EVar "units") ;-
        SOp OSub (EVar "factor") (EInt 1) ;-
        SOp OAdd (EVar "byte_size") (EBin OMul (EVar "remainder") (EInt 10))) SSkip ;-
      SFor (SSkip) (EBin OGt (EVar "factor") (EInt 0)) (SOp OSub (EVar "factor") (EInt 1)) (
        SOp OMul (EVar "byte_size") (EVar "units"))) Y.

  Definition scaled (k : nat) (u b : N) (r : Z) : N :=
    match k with
    | O => b
    | S f => if (0 <? r)%Z then scale f u (((b * u) mod 2 ^ 64 + Z.to_N r * 10) mod 2 ^ 64) else scale k u b
    end.

  Lemma scale_run : forall sv i b k r d u Y (K : flow -> locals -> M T), u < 2 ^ 31 -> (k <= 8)%nat -> (-128 <= r < 128)%Z ->
    (forall l, lget l "remainder" = Some (VS R8 r) -> dn Y l K s = K FNext l s) ->
    dn (scale_text Y) (cl sv i b (Z.of_nat k) r d (Z.of_N u)) K s = K FNext (cl sv i (scaled k u b r) 0 r d (Z.of_N u)) s.
  Proof.
    intros sv i b k r d u Y K Hu Hk Hr HY. unfold scale_text.
    assert (C1 : ev (EBin OGt (EVar "factor") (EInt 0)) (cl sv i b (Z.of_nat k) r d (Z.of_N u)) s = Done (truth (0 <? Z.of_nat k)%Z, cl sv i b (Z.of_nat k) r d (Z.of_N u)) s) by reflexivity.
    rewrite (decided _ _ _ _ _ _ _ _ _ _ _ _ C1). destruct k as [|k].
    - change (0 <? Z.of_nat 0)%Z with false. cbv iota. apply HY. reflexivity.
    - replace (0 <? Z.of_nat (S k))%Z with true by (symmetry; apply Z.ltb_lt; lia).
      rewrite den_seq.
      assert (C2 : ev (EBin OGt (EVar "remainder") (EInt 0)) (cl sv i b (Z.of_nat (S k)) r d (Z.of_N u)) s = Done (truth (0 <? r)%Z, cl sv i b (Z.of_nat (S k)) r d (Z.of_N u)) s) by reflexivity.
      rewrite (decided _ _ _ _ _ _ _ _ _ _ _ _ C2). cbn [scaled]. destruct (Z.ltb_spec 0 r) as [Hp|Hp].
      + rewrite den_seq, times_units by exact Hu. rewrite den_seq, less_factor by lia.
        assert (M2 : forall x (K' : flow -> locals -> M T), dn (SOp OAdd (EVar "byte_size") (EBin OMul (EVar "remainder") (EInt 10))) (cl sv i x (Z.of_nat k) r d (Z.of_N u)) K' s =
                        K' FNext (cl sv i ((x + Z.to_N r * 10) mod 2 ^ 64) (Z.of_nat k) r d (Z.of_N u)) s).
        { intros x K'. rewrite den_op. change (ev (EVar "byte_size") (cl sv i x (Z.of_nat k) r d (Z.of_N u)) s) with (Done (VU R64 x, cl sv i x (Z.of_nat k) r d (Z.of_N u)) s). cbn [fst snd].
          erewrite ev_bin; [|reflexivity|reflexivity|cbn [binary usual promote rank_max arith]; apply in_range_int; lia]. cbn [fst snd].
          cbn [binary usual promote]. change (rank_leb R32 R64) with true. cbv iota. rewrite tu_int by (reflexivity || lia). cbn [arith].
          replace (Z.to_N (r * 10)) with (Z.to_N r * 10) by lia. reflexivity. }
        rewrite M2, den_for, den_skip, scale_loop by (trivial; lia). reflexivity.
      + rewrite den_skip, den_for, den_skip, scale_loop by (trivial; lia). reflexivity.
  Qed.

  Definition rest_text : stmt :=
    SIf (ELogAnd (ELogAnd (ELogAnd (EBin ONe CH (EInt 0)) (EBin ONe CH (EChar (EInt 32)))) (EBin ONe CH (EChar (EInt 10)))) (EBin ONe CH (EChar (EInt 13)))) (
      SExpr (ECall "libcnotify_printf" [])) SSkip.
  Lemma rest_run : forall sv i b f r d u (K : flow -> locals -> M T),
    dn rest_text (cl sv i b f r d u) K s = match aget str i with Some _ => K FNext (cl sv i b f r d u) s | None => Undef end.
  Proof.
    intros sv i b f r d u K. unfold rest_text. destruct (aget str i) as [c|] eqn:Hc.
    2: { apply if_undef, ev_and_undef, ev_and_undef, ev_and_undef, ch_none, Hc. }
    erewrite decided.
    2: { apply ev_and; [apply ev_and; [apply ev_and|]|]; [|intros _ ..];
         try (eapply ch_bin; [discriminate|discriminate|lia|exact Hc|reflexivity]).
         eapply ev_bin; [rewrite ch, Hc; reflexivity|reflexivity|].
         rewrite (bin_int E ONe _ (VS R32 0) _ 0%Z (char_promote sg vb c) eq_refl) by discriminate. reflexivity. }
    match goal with |- (if ?x then _ else _) = _ => destruct x end; reflexivity.
  Qed.
End Convert.

(* ------------------------------------------------------------- the function *)

Definition convert_text (vb : bool) : stmt :=
  SIf (EBin OEq (EVar "byte_size_string") ENull) (
    SExpr (ECall "libcerror_error_set" [(EVar "error"); (EName "LIBCERROR_ERROR_DOMAIN_ARGUMENTS"); (EName "LIBCERROR_ARGUMENT_ERROR_INVALID_VALUE")]) ;-
    SReturn (EInt (-1))) SSkip ;-
  SIf (EBin OEq (EVar "size") ENull) (
    SExpr (ECall "libcerror_error_set" [(EVar "error"); (EName "LIBCERROR_ERROR_DOMAIN_ARGUMENTS"); (EName "LIBCERROR_ARGUMENT_ERROR_INVALID_VALUE")]) ;-
    SReturn (EInt (-1))) SSkip ;-
  SIf (EBin ONe (ECall "libclocale_locale_get_decimal_point" [(ERef "decimal_point"); (EVar "error")]) (EInt 1)) (
    SExpr (ECall "libcerror_error_set" [(EVar "error"); (EName "LIBCERROR_ERROR_DOMAIN_RUNTIME"); (EName "LIBCERROR_RUNTIME_ERROR_GET_FAILED")]) ;-
    SReturn (EInt (-1))) SSkip ;-
  SWhile more number_body ;-
  fraction_text ;- space_text ;- factor_text ;- after_factor ;- units_text ;-
  (if vb then scale_text (SIf (EBin OGe (EVar "remainder") (EInt 0)) (SExpr (ECall "libcnotify_printf" [])) SSkip) ;- rest_text ;-
             SAssign (EOut "size") (EVar "byte_size") ;- SReturn (EInt 1)
   else scale_text SSkip ;- SAssign (EOut "size") (EVar "byte_size") ;- SReturn (EInt 1)).
Definition convert_def (vb : bool) : fundef := if vb then text_byte_size_string_convert_verbose else text_byte_size_string_convert_quiet.
Lemma convert_eq : forall vb, f_body (convert_def vb) = convert_text vb.
Proof. intros []; reflexivity. Qed.

Lemma fraction_small : forall str len d i i' r, scan_fraction str len d i = Some (i', r) -> (-128 <= r < 128)%Z.
Proof.
  intros str len d i i' r H. unfold scan_fraction in H.
  destruct (aget str i) as [c|]; [|discriminate]. cbn [obind] in H. destruct (c =? d); cbn [negb] in H; [|injection H as _ <-; lia].
  destruct (aget str (S i)) as [c1|]; [|discriminate]. cbn [obind] in H.
  assert (D : forall c, is_digit c = true -> (0 <= Z.of_N (c - 48) < 10)%Z).
  { intros x Hx. unfold is_digit in Hx. apply andb_true_iff in Hx. destruct Hx as (X1 & X2). apply N.leb_le in X1, X2. lia. }
  destruct (is_digit c1) eqn:D1; cbv iota beta zeta in H.
  - destruct (aget str (S (S i))) as [c2|]; [|discriminate]. cbn [obind] in H. apply D in D1.
    destruct (is_digit c2) eqn:D2; cbv iota beta zeta in H; (destruct (skip_digits (S (List.length str)) str len _) as [j|]; [|discriminate]; cbv beta iota delta [obind] in H;
      apply (f_equal (fun o => match o with Some (_, z) => z | None => 0%Z end)) in H; cbv beta iota in H); [apply D in D2|]; lia.
  - destruct (aget str (S i)) as [c2|]; [|discriminate]. cbn [obind] in H.
    destruct (is_digit c2) eqn:D2; cbv iota beta zeta in H; (destruct (skip_digits (S (List.length str)) str len _) as [j|]; [|discriminate]; cbv beta iota delta [obind] in H;
      apply (f_equal (fun o => match o with Some (_, z) => z | None => 0%Z end)) in H; cbv beta iota in H); [apply D in D2|]; lia.
Qed.
Lemma factor_le : forall c, (factor_of c <= 8)%nat.
Proof. intros c. unfold factor_of. repeat match goal with |- context [if ?x then _ else _] => destruct x end; lia. Qed.

Lemma rem_run : forall E sg vb lp sc fuel T r l (K : flow -> locals -> M T) s, lget l "remainder" = Some (VS R8 r) ->
  @den E (tools_text sg vb) (tool_call E lp sc) fuel T (SIf (EBin OGe (EVar "remainder") (EInt 0)) (SExpr (ECall "libcnotify_printf" [])) SSkip) l K s = K FNext l s.
Proof.
  intros E sg vb lp sc fuel T r l K s H.
  assert (C : eval E (tools_text sg vb) (tool_call E lp sc) (EBin OGe (EVar "remainder") (EInt 0)) l s = Done (truth (0 <=? r)%Z, l) s).
  { eapply ev_bin; [cbn [eval]; rewrite H; reflexivity|reflexivity|reflexivity]. }
  rewrite (decided _ _ _ _ _ _ _ _ _ _ _ _ C). destruct (0 <=? r)%Z; reflexivity.
Qed.

Lemma text_convert : forall E sg vb lp sc fuel p str len q e s,
  wf_state s -> match p, str with Some p, Some l => view p s = Done l s /\ N.of_nat (List.length l) < size_mod E /\ (S (List.length l) <= fuel)%nat
                | None, None => True | _, _ => False end ->
  len < size_mod E -> (8 <= fuel)%nat ->
  run_tool E sg vb lp sc fuel "byte_size_string_convert" [v_chars p; VU RSz len; v_number q; v_error e] s =
  (r <- byte_size_string_convert vb (option_map (fun z => Z.to_N (z mod 256)) lp) str len (is_some q) e ;;
   ret (VS R32 (fst r), [None; None; option_map (fun old => VU R64 (match snd r with Some n => n | None => old end)) q; None])) s.
Proof.
  intros E sg vb lp sc fuel p str len q e s W Hs Hlen H8.
  eapply enter_tool with (def := convert_def vb).
  1: { destruct vb; reflexivity. }
  1: { destruct vb; reflexivity. }
  1: { replace (f_params (convert_def vb)) with (f_params text_byte_size_string_convert_quiet) by (destruct vb; reflexivity). tpar. }
  1: { replace (f_locals (convert_def vb)) with (f_locals text_byte_size_string_convert_quiet) by (destruct vb; reflexivity).
       instantiate (1 := s). instantiate (1 := [("byte_size_string", v_chars p); ("byte_size_string_length", VU RSz len); ("size", v_number q); ("error", v_error e);
         ("byte_size_string_iterator", VU RSz 0); ("byte_size", VU R64 0); ("factor", VS R8 0); ("remainder", VS R8 (-1)); ("decimal_point", VS R32 0); ("units", VS R32 0)]).
       cbn [enter_locals f_locals text_byte_size_string_convert_quiet eval]. unfold bind, ret. cbn [fst snd].
       replace (to_unsigned E RSz (VS R32 0)) with (Some 0) by (symmetry; tunum). reflexivity. }
  intros kl ke Hkl Hke. rewrite convert_eq.
  match goal with |- @den _ _ _ _ _ _ ?l _ _ = _ => set (L := l) end.
  set (R := fun r => ret (VS R32 (fst r), [None; None; option_map (fun old => VU R64 (match snd r with Some n => n | None => old end)) q; None]) : M (val * list (option val))).
  change (@den E (tools_text sg vb) (tool_call E lp sc) fuel (val * list (option val)) (convert_text vb) L ke s =
    (r <- byte_size_string_convert vb (option_map (fun z => Z.to_N (z mod 256)) lp) str len (is_some q) e ;; R r) s).
  assert (Lf : leave E (convert_def vb) = leave E text_byte_size_string_convert_quiet) by (destruct vb; reflexivity).
  assert (Hret : forall z s1, ke (FReturn (VS R32 z)) L s1 = R (z, None) s1).
  { intros. subst ke kl L R. rewrite Lf. destruct p, q, e; reflexivity. }
  assert (Hr2 : forall p0 o n i b f r d u z s1, p = Some p0 -> q = Some o ->
                ke (FReturn (VS R32 z)) (cl p0 len e (VRef (VU R64 n)) i b f r d u) s1 = R (z, Some n) s1).
  { intros. subst ke kl L R p q. rewrite Lf. destruct e; reflexivity. }
  clear Hke Hkl Lf. unfold byte_size_string_convert, convert_text.
  rewrite den_seq, (missing _ _ _ _ _ "byte_size_string" (v_chars p)) with (b := match p with Some _ => false | None => true end) by (reflexivity || apply null_chars).
  destruct p as [p|], str as [str|]; try contradiction; cycle 1.
  { rewrite bind_assoc. eapply failed; [reflexivity|reflexivity|intros; rewrite Hret; reflexivity]. }
  destruct Hs as (Hv & Hl & Hf). rewrite den_skip, den_seq.
  rewrite (missing _ _ _ _ _ "size" (v_number q)) with (b := match q with Some _ => false | None => true end) by (reflexivity || (destruct q; reflexivity)).
  destruct q as [old|]; cbn [is_some negb]; cycle 1.
  { rewrite bind_assoc. eapply failed; [reflexivity|reflexivity|intros; rewrite Hret; reflexivity]. }
  rewrite den_skip, den_seq, den_if.
  assert (C : eval E (tools_text sg vb) (tool_call E lp sc) (EBin ONe (ECall "libclocale_locale_get_decimal_point" [(ERef "decimal_point"); (EVar "error")]) (EInt 1)) L s =
              Done (truth (negb (is_some lp)), cl p len e (VRef (VU R64 old)) 0 0 0 (-1) (match lp with Some d => d | None => 0%Z end) 0) s).
  { destruct lp, e; reflexivity. }
  rewrite C. clear C. cbn [fst snd]. rewrite test_truth.
  destruct lp as [d|]; cbn [is_some negb option_map]; cycle 1.
  { rewrite bind_assoc. eapply failed; [reflexivity|reflexivity|]. intros. etransitivity; [eapply Hr2; reflexivity|reflexivity]. }
  destruct (view_inv _ _ _ _ W Hv) as (_ & Hb). rewrite den_skip, den_seq, den_while.
  rewrite (number_loop E sg vb (Some d) sc fuel p str len e s Hv Hb Hl _ _ _ _ _ _ _ (S (List.length str))) by lia.
  rewrite bind_assoc. unfold bind at 1. destruct (scan_number (S (List.length str)) str len 0 0) as [[i b]|]; cbn [lift]; [unfold ret at 1; cbv beta iota zeta|reflexivity].
  rewrite den_seq, (fraction_run E sg vb (Some d) sc fuel p str len e s Hv Hb Hl) by lia.
  rewrite bind_assoc. unfold bind at 1. destruct (scan_fraction str len (Z.to_N (d mod 256)) i) as [[i1 r]|] eqn:Fr; cbn [lift]; [unfold ret at 1; cbv beta iota zeta|reflexivity].
  rewrite den_seq, (space_run E sg vb (Some d) sc fuel p str len e s Hv Hb Hl).
  rewrite bind_assoc. unfold bind at 1. destruct (aget str i1) as [c|] eqn:A1; cbn [lift]; [unfold ret at 1; cbv beta iota zeta|reflexivity].
  cbv zeta. set (i2 := if c =? 32 then S i1 else i1).
  rewrite den_seq, (factor_run E sg vb (Some d) sc fuel p str len e s Hv Hb Hl).
  rewrite bind_assoc. unfold bind at 1. destruct (aget str i2) as [c'|] eqn:A2; cbn [lift]; [unfold ret at 1; cbv beta iota zeta|reflexivity].
  rewrite den_seq, (after_factor_run E sg vb (Some d) sc fuel p str len e s Hl) by (pose proof (proj2 (char_byte _ Hb _ _ A2)); lia).
  set (i3 := if Nat.ltb 1 (factor_of c') then S i2 else i2).
  assert (H3 : (i3 <= List.length str)%nat) by (pose proof (proj2 (char_byte _ Hb _ _ A2)); subst i3; destruct (Nat.ltb 1 (factor_of c')); lia).
  rewrite den_seq, (units_run E sg vb (Some d) sc fuel p str len e s Hv Hb Hl) with (R := fun z => R (z, Some old)) by first [lia | intros; eapply Hr2; reflexivity].
  rewrite bind_assoc. unfold bind at 2. destruct (scan_units str len i3) as [[[u i4]|]|] eqn:Su; cbn [lift]; [unfold ret at 1; cbv beta iota zeta| |reflexivity].
  2: { unfold ret at 1. cbv beta iota. rewrite bind_assoc. apply bind_ext. intros; reflexivity. }
  assert (Hu : u < 2 ^ 31).
  { unfold scan_units in Su. repeat match type of Su with context [if ?x then _ else _] => destruct x | context [obind (aget ?a ?b) _] => destruct (aget a b); cbn [obind] in Su end;
    try discriminate; injection Su as <- _; reflexivity. }
  assert (Hr : (-128 <= r < 128)%Z) by exact (fraction_small _ _ _ _ _ _ Fr).
  change (match factor_of c' with O => b | S f => if (0 <? r)%Z then scale f u (((b * u) mod 2 ^ 64 + Z.to_N r * 10) mod 2 ^ 64) else scale (factor_of c') u b end)
    with (scaled (factor_of c') u b r).
  destruct vb.
  - rewrite den_seq, (scale_run E sg true (Some d) sc fuel p str len e s) by first [assumption | apply factor_le | intros l0 Hl0; eapply rem_run; exact Hl0].
    rewrite den_seq, (rest_run E sg true (Some d) sc fuel p str len e s Hv) by assumption.
    unfold bind at 1. unfold bind at 1. unfold bind at 1. destruct (aget str i4) as [c3|]; cbn [lift]; [|reflexivity]. unfold ret at 1. unfold ret at 1. unfold ret at 1.
    rewrite den_seq. change (@den ?A ?B ?C ?D ?F (SAssign (EOut "size") (EVar "byte_size")) ?l ?K ?z) with (K FNext (cl p len e (VRef (VU R64 (scaled (factor_of c') u b r))) i4 (scaled (factor_of c') u b r) 0 r d (Z.of_N u)) z).
    cbv beta iota. rewrite den_return_int. eapply Hr2; reflexivity.
  - rewrite den_seq, (scale_run E sg false (Some d) sc fuel p str len e s) by first [assumption | apply factor_le | intros; apply den_skip].
    unfold bind at 1. unfold bind at 1. unfold ret at 1. unfold ret at 1.
    rewrite den_seq. change (@den ?A ?B ?C ?D ?F (SAssign (EOut "size") (EVar "byte_size")) ?l ?K ?z) with (K FNext (cl p len e (VRef (VU R64 (scaled (factor_of c') u b r))) i4 (scaled (factor_of c') u b r) 0 r d (Z.of_N u)) z).
    cbv beta iota. rewrite den_return_int. eapply Hr2; reflexivity.
  - exact Hf.
  - exact Hf.
Qed.
