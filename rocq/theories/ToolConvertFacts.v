(* Facts about parsing of sizes. *)
From Coq Require Import String Ascii Arith NArith ZArith List Lia Bool.
From Verif Require Import Words Spec Machine WordFacts MachineFacts ToolStrings ToolStringsFacts.
Import ListNotations.
Open Scope N_scope.

Lemma is_digit_true : forall c, numeric c -> is_digit c = true.
Proof. intros c []. unfold is_digit. rewrite andb_true_iff, !N.leb_le. lia. Qed.
Lemma is_digit_false : forall c, ~ numeric c -> is_digit c = false.
Proof.
  intros c H. unfold is_digit, numeric in *. destruct (N.leb_spec 48 c); [|reflexivity].
  destruct (N.leb_spec c 57); [lia|reflexivity].
Qed.
Lemma numeric_dec : forall c, {numeric c} + {~ numeric c}.
Proof.
  intros c. destruct (is_digit c) eqn:E; [left|right].
  - unfold is_digit in E. rewrite andb_true_iff, !N.leb_le in E. exact E.
  - intro H. rewrite is_digit_true in E by assumption. discriminate.
Qed.

Lemma aget_mid : forall (pre : list N) c rest, aget (pre ++ c :: rest) (length pre) = Some c.
Proof. intros. unfold aget. rewrite nth_error_app2, Nat.sub_diag by lia. reflexivity. Qed.

Definition add_digit (v c : N) : N := ((v * 10) mod 2 ^ 64 + (c - 48)) mod 2 ^ 64.
Lemma add_digit_fold : forall ds v, fold_left add_digit ds (v mod 2 ^ 64) = (fold_left (fun v c => v * 10 + (c - 48)) ds v) mod 2 ^ 64.
Proof.
  induction ds; intros v; [reflexivity|]. cbn [fold_left]. rewrite <- IHds. f_equal. unfold add_digit.
  rewrite N.mul_mod_idemp_l, N.add_mod_idemp_l by discriminate. reflexivity.
Qed.

Lemma scan_number_ok : forall ds pre c rest len fuel acc, Forall numeric ds -> ~ numeric c ->
  N.of_nat (length pre + length ds) <= len -> (length ds < fuel)%nat ->
  scan_number fuel (pre ++ ds ++ c :: rest) len (length pre) acc = Some ((length pre + length ds)%nat, fold_left add_digit ds acc).
Proof.
  induction ds as [|a ds IH]; intros pre c rest len fuel acc HD HC HL HF; (destruct fuel; [lia|]); cbn [scan_number].
  - cbn [app length fold_left]. rewrite Nat.add_0_r in *. rewrite aget_mid; cbv beta iota delta [obind]; rewrite (is_digit_false _ HC). cbn [negb].
    now destruct (_ <? _).
  - inversion_clear HD. cbn [length app] in *. destruct (N.ltb_spec (N.of_nat (length pre)) len); [|lia].
    rewrite aget_mid; cbv beta iota delta [obind]; rewrite is_digit_true by assumption. cbn [negb].
    specialize (IH (pre ++ [a]) c rest len fuel (add_digit acc a) H0 HC). rewrite app_length in IH. cbn [length] in IH.
    rewrite <- app_assoc in IH. cbn [app] in IH. replace (length pre + 1)%nat with (S (length pre)) in IH by lia.
    unfold add_digit at 1 in IH. rewrite IH by lia. cbn [fold_left]. f_equal. f_equal. lia.
Qed.

Lemma skip_digits_ok : forall ds pre c rest len fuel, Forall numeric ds -> ~ numeric c ->
  N.of_nat (length pre + length ds) <= len -> (length ds < fuel)%nat ->
  skip_digits fuel (pre ++ ds ++ c :: rest) len (length pre) = Some (length pre + length ds)%nat.
Proof.
  induction ds as [|a ds IH]; intros pre c rest len fuel HD HC HL HF; (destruct fuel; [lia|]); cbn [skip_digits].
  - cbn [app length]. rewrite Nat.add_0_r in *. rewrite aget_mid; cbv beta iota delta [obind]; rewrite (is_digit_false _ HC). cbn [negb].
    now destruct (_ <? _).
  - inversion_clear HD. cbn [length app] in *. destruct (N.ltb_spec (N.of_nat (length pre)) len); [|lia].
    rewrite aget_mid; cbv beta iota delta [obind]; rewrite is_digit_true by assumption. cbn [negb].
    specialize (IH (pre ++ [a]) c rest len fuel H0 HC). rewrite app_length in IH. cbn [length] in IH.
    rewrite <- app_assoc in IH. cbn [app] in IH. replace (length pre + 1)%nat with (S (length pre)) in IH by lia.
    rewrite IH by lia. f_equal. lia.
Qed.

Lemma scan_fraction_ok : forall pre text r c rest len d, point d -> fraction d text r -> ~ numeric c -> (text = [] -> c <> d) ->
  N.of_nat (length pre + length text) <= len ->
  exists rz, scan_fraction (pre ++ text ++ c :: rest) len d (length pre) = Some ((length pre + length text)%nat, rz) /\
  ((0 < rz)%Z <-> 0 < r) /\ (0 < r -> rz = Z.of_N r).
Proof.
  intros pre text r c rest len d P [(-> & ->)|(fs & -> & HF & ->)] HC HD HL; unfold scan_fraction.
  - cbn [app length]. rewrite aget_mid; cbv beta iota delta [obind]. destruct (N.eqb_spec c d); [exfalso; now apply HD|]. cbn [negb].
    exists (-1)%Z. rewrite Nat.add_0_r. split; [reflexivity|]. split; lia.
  - cbn [app length]. rewrite aget_mid; cbv beta iota delta [obind]; rewrite N.eqb_refl. cbn [negb].
    assert (A1 : forall x y, aget (pre ++ d :: x :: y) (S (length pre)) = Some x).
    { intros. replace (S (length pre)) with (length (pre ++ [d])) by (rewrite app_length; cbn; lia).
      change (d :: x :: y) with ([d] ++ x :: y). rewrite app_assoc. apply aget_mid. }
    assert (A2 : forall w x y, aget (pre ++ d :: w :: x :: y) (S (S (length pre))) = Some x).
    { intros. replace (S (S (length pre))) with (length (pre ++ [d; w])) by (rewrite app_length; cbn; lia).
      change (d :: w :: x :: y) with ([d; w] ++ x :: y). rewrite app_assoc. apply aget_mid. }
    destruct fs as [|a [|b fs]].
    + cbn [app]. rewrite A1; cbv beta iota zeta delta [obind]; rewrite (is_digit_false _ HC); cbv beta iota zeta delta [obind]. rewrite A1; cbv beta iota zeta delta [obind]; rewrite (is_digit_false _ HC); cbv beta iota zeta delta [obind].
      exists (-10)%Z. cbn [hundredths].
      pose proof (skip_digits_ok [] (pre ++ [d]) c rest len (S (length (pre ++ d :: c :: rest)))) as S.
      rewrite <- app_assoc in S. cbn [app] in S. rewrite !app_length in S. cbn [length] in S, HL.
      replace (length pre + 1)%nat with (Datatypes.S (length pre)) in S by lia. rewrite app_length. cbn [length]. rewrite S; try assumption; try (constructor; fail); [|lia|lia].
      split; [f_equal; f_equal; lia|]. split; lia.
    + inversion_clear HF. cbn [app]. rewrite A1; cbv beta iota zeta delta [obind]; rewrite is_digit_true by assumption; cbv beta iota zeta delta [obind]. rewrite A2; cbv beta iota zeta delta [obind]; rewrite (is_digit_false _ HC); cbv beta iota zeta delta [obind].
      eexists. split; [|].
      * pose proof (skip_digits_ok [] (pre ++ [d; a]) c rest len (S (length (pre ++ d :: a :: c :: rest)))) as S.
        rewrite <- app_assoc in S. cbn [app] in S. rewrite !app_length in S. cbn [length] in S, HL.
        replace (length pre + 2)%nat with (Datatypes.S (Datatypes.S (length pre))) in S by lia. rewrite app_length. cbn [length]. rewrite S; try assumption; try (constructor; fail); [|lia|lia].
        f_equal. f_equal. lia.
      * cbn [hundredths]. unfold numeric in *. split; lia.
    + inversion_clear HF. inversion_clear H0. cbn [app]. rewrite A1; cbv beta iota zeta delta [obind]; rewrite is_digit_true by assumption; cbv beta iota zeta delta [obind]. rewrite A2; cbv beta iota zeta delta [obind]; rewrite is_digit_true by assumption; cbv beta iota zeta delta [obind].
      eexists. split; [|].
      * pose proof (skip_digits_ok fs (pre ++ [d; a; b]) c rest len (S (length (pre ++ d :: a :: b :: fs ++ c :: rest)))) as S.
        rewrite <- app_assoc in S. cbn [app] in S. rewrite !app_length in S. cbn [length] in S, HL. rewrite app_length in S.
        replace (length pre + 3)%nat with (Datatypes.S (Datatypes.S (Datatypes.S (length pre)))) in S by lia.
        rewrite app_length. cbn [length]. rewrite app_length. rewrite S; try assumption; [|lia|lia].
        f_equal. f_equal. lia.
      * cbn [hundredths]. unfold numeric in *. split; lia.
Qed.

(* what follows the number, the fraction and the space: the power and the unit *)
Definition units_of (w : list N) : option N :=
  match w with
  | [] => Some 1024
  | 66 :: _ => Some 1000
  | 105 :: 66 :: _ => Some 1024
  | _ => None
  end.
Definition ending (w : list N) : N * option N :=
  match w with
  | [] => (0, Some 1024)
  | c :: w' => if Nat.ltb 1 (factor_of c) then (N.of_nat (factor_of c), units_of w') else (N.of_nat (factor_of c), units_of w)
  end.

Lemma scan_units_ok : forall pre w rest, Forall (fun c => c <> 0) w ->
  exists x, scan_units (pre ++ w ++ 0 :: rest) (N.of_nat (length pre + length w)) (length pre) = Some x /\
  match units_of w with
  | Some u => exists i c, x = Some (u, i) /\ aget (pre ++ w ++ 0 :: rest) i = Some c
  | None => x = None
  end.
Proof.
  intros pre w rest HZ. unfold scan_units. destruct w as [|c w].
  - rewrite Nat.add_0_r, N.leb_refl. eexists. split; [reflexivity|]. cbn [units_of]. exists (length pre), 0. split; [reflexivity|].
    apply aget_mid.
  - cbn [length app]. destruct (N.leb_spec (N.of_nat (length pre + S (length w))) (N.of_nat (length pre))); [lia|].
    rewrite aget_mid; cbv beta iota delta [obind].
    assert (A1 : forall x y, aget (pre ++ c :: x :: y) (S (length pre)) = Some x).
    { intros. replace (S (length pre)) with (length (pre ++ [c])) by (rewrite app_length; cbn; lia).
      change (c :: x :: y) with ([c] ++ x :: y). rewrite app_assoc. apply aget_mid. }
    assert (NE : exists x y, w ++ 0 :: rest = x :: y /\ (w = [] /\ x = 0 \/ exists w', w = x :: w' /\ y = w' ++ 0 :: rest)).
    { destruct w as [|x w']; [exists 0, rest; split; [reflexivity|left; now split]|].
      exists x, (w' ++ 0 :: rest). split; [reflexivity|right; now exists w']. }
    destruct NE as (x & y & EQ & NE). rewrite EQ, A1; cbv beta iota delta [obind].
    destruct (N.eqb_spec c 105) as [->|N105].
    + destruct NE as [(-> & ->)|(w' & -> & ->)].
      * cbn [N.eqb]. eexists. split; reflexivity.
      * destruct (N.eqb_spec x 66) as [->|N66].
        -- eexists. split; [reflexivity|]. cbn [units_of].
           assert (exists z zs, w' ++ 0 :: rest = z :: zs) as (z & zs & ->) by (destruct w'; cbn; eauto).
           exists (length pre + 2)%nat, z. split; [reflexivity|].
           replace (length pre + 2)%nat with (length (pre ++ [105; 66])) by (rewrite app_length; cbn; lia).
           change (105 :: 66 :: z :: zs) with ([105; 66] ++ z :: zs). rewrite app_assoc. apply aget_mid.
        -- eexists. split; [reflexivity|]. destruct x as [|p]; [reflexivity|].
           cbn [units_of]. do 7 (try destruct p as [p|p|]); try reflexivity; congruence.
    + destruct (N.eqb_spec c 66) as [->|N66].
      * eexists. split; [reflexivity|]. cbn [units_of]. exists (S (length pre)), x. split; [reflexivity|]. apply A1.
      * eexists. split; [reflexivity|].
        destruct c as [|p]; [reflexivity|]. cbn [units_of]. do 7 (try destruct p as [p|p|]); try reflexivity; congruence.
Qed.

Lemma scale_ok : forall f u b, b < 2 ^ 64 -> scale f u b = (b * u ^ N.of_nat f) mod 2 ^ 64.
Proof.
  induction f; intros u b H.
  - cbn [scale]. change (N.of_nat 0) with 0. rewrite N.pow_0_r, N.mul_1_r, N.mod_small by assumption. reflexivity.
  - cbn [scale]. rewrite IHf by (apply N.mod_lt; discriminate). rewrite N.mul_mod_idemp_l by discriminate.
    rewrite Nat2N.inj_succ, N.pow_succ_r'. f_equal. lia.
Qed.

Lemma value_eq : forall ds rz r f u, ((0 < rz)%Z <-> 0 < r) -> (0 < r -> rz = Z.of_N r) ->
  match f with
  | O => fold_left add_digit ds 0
  | S f' => if (0 <? rz)%Z then scale f' u (((fold_left add_digit ds 0 * u) mod 2 ^ 64 + Z.to_N rz * 10) mod 2 ^ 64)
            else scale f u (fold_left add_digit ds 0)
  end = parsed_value (value_of ds) r (N.of_nat f) u.
Proof.
  intros ds rz r f u H1 H2. pose proof (add_digit_fold ds 0) as F. change (0 mod 2 ^ 64) with 0 in F.
  fold (value_of ds) in F. rewrite F. unfold parsed_value. destruct f as [|f]; [reflexivity|].
  destruct (N.eqb_spec (N.of_nat (S f)) 0); [lia|].
  assert (E1 : N.of_nat (S f) - 1 = N.of_nat f) by lia. rewrite E1.
  assert (E2 : u ^ N.of_nat (S f) = u * u ^ N.of_nat f) by (rewrite Nat2N.inj_succ; apply N.pow_succ_r'). 
  destruct (Z.ltb_spec 0 rz).
  - rewrite H2 by tauto. rewrite N2Z.id. rewrite scale_ok by (apply N.mod_lt; discriminate).
    rewrite N.mul_mod_idemp_l by discriminate.
    rewrite N.mul_mod_idemp_l by discriminate. rewrite <- N.mul_mod_idemp_l, N.add_mod_idemp_l, N.mul_mod_idemp_l by discriminate.
    rewrite E2. f_equal. lia.
  - assert (r = 0) by lia. subst r. rewrite !N.mul_0_l, N.add_0_r.
    rewrite scale_ok by (apply N.mod_lt; discriminate). rewrite N.mul_mod_idemp_l by discriminate. reflexivity.
Qed.

Definition spacing (sp w : list N) : Prop := sp = [32] \/ sp = [] /\ hd 0 w <> 32.
Definition head_ok (d : N) (fr rest : list N) : Prop := ~ numeric (hd 0 rest) /\ (fr = [] -> hd 0 rest <> d).

Lemma hd_app_zero : forall (w rest : list N), exists c y, w ++ 0 :: rest = c :: y /\ c = hd 0 w.
Proof. destruct w; cbn; eauto. Qed.

Lemma factor_cases : forall c, (factor_of c <= 8)%nat.
Proof. intros. unfold factor_of. repeat (destruct (_ || _); [lia|]). lia. Qed.

Lemma convert_run : forall verbose d ds fr r sp w rest e s, point d -> Forall numeric ds -> fraction d fr r ->
  (fr = [] -> ~ numeric (hd 0 (sp ++ w))) ->
  head_ok d fr (sp ++ w) -> spacing sp w -> Forall (fun c => c <> 0) w ->
  let t := ds ++ fr ++ sp ++ w in
  byte_size_string_convert verbose (Some d) (Some (t ++ 0 :: rest)) (N.of_nat (length t)) true e s =
  match ending w with
  | (f, Some u) => Done (1%Z, Some (parsed_value (value_of ds) r f u)) s
  | (_, None) => Done ((-1)%Z, None) (add_err e E_RUNTIME_VALUE_OUT_OF_BOUNDS s)
  end.
Proof.
  intros verbose d ds fr r sp w rest e s P HD HFR H0 (H1 & H2) HS HZ t. unfold byte_size_string_convert. cbn [negb].
  destruct (hd_app_zero (sp ++ w) rest) as (c & y & EC & Ec).
  assert (HC : ~ numeric c) by (subst c; assumption).
  (* number *)
  assert (E1 : exists c1 y1, t ++ 0 :: rest = [] ++ ds ++ c1 :: y1 /\ ~ numeric c1 /\ c1 :: y1 = fr ++ c :: y).
  { unfold t. destruct HFR as [(-> & _)|(fs & -> & _)].
    - exists c, y. cbn [app]. rewrite <- EC, <- !app_assoc. split; [reflexivity|]. split; [assumption|reflexivity].
    - exists d, (fs ++ c :: y). cbn [app]. rewrite <- EC, <- !app_assoc. cbn [app]. rewrite <- !app_assoc. split; [reflexivity|].
      split; [apply P|reflexivity]. }
  destruct E1 as (c1 & y1 & E1 & N1 & E1').
  assert (LT : length t = (length ds + length fr + length sp + length w)%nat) by (unfold t; rewrite !app_length; lia).
  rewrite E1. erewrite bind_done.
  2:{ erewrite (scan_number_ok ds []); [apply lift_some|assumption|assumption|cbn; lia|]. cbn [app length]. rewrite app_length. lia. }
  cbv beta iota. cbn [length Nat.add].
  (* fraction *)
  rewrite E1'. cbn [app].
  destruct (scan_fraction_ok ds fr r c y (N.of_nat (length t)) d P HFR HC) as (rz & EF & R1 & R2).
  { intro Hf. subst c. now apply H2. } { lia. }
  erewrite bind_done by (rewrite EF; apply lift_some). cbv beta iota.
  (* space *)
  rewrite app_assoc, <- app_length.
  erewrite bind_done by (rewrite aget_mid; apply lift_some). cbv beta.
  assert (EI : (if c =? 32 then S (length (ds ++ fr)) else length (ds ++ fr)) = length (ds ++ fr ++ sp)).
  { destruct HS as [->|(-> & HS)].
    - cbn [app hd] in Ec. subst c. cbn [N.eqb Pos.eqb]. rewrite !app_length. cbn. lia.
    - cbn [app] in Ec. subst c. destruct (N.eqb_spec (hd 0 w) 32); [contradiction|]. rewrite !app_length. cbn. lia. }
  cbv zeta. rewrite EI.
  assert (EL : (ds ++ fr) ++ c :: y = (ds ++ fr ++ sp) ++ w ++ 0 :: rest) by (rewrite <- EC, <- !app_assoc; reflexivity).
  rewrite EL.
  destruct (hd_app_zero w rest) as (c2 & y2 & EC2 & Ec2).
  rewrite EC2. erewrite bind_done by (rewrite aget_mid; apply lift_some). cbv beta. rewrite <- EC2.
  set (pre := ds ++ fr ++ sp) in *.
  assert (LT2 : length t = (length pre + length w)%nat) by (unfold pre; rewrite LT, !app_length; lia).
  assert (G : forall pre' w' f, (if Nat.ltb 1 (factor_of c2) then S (length pre) else length pre) = length pre' ->
     pre ++ w ++ 0 :: rest = pre' ++ w' ++ 0 :: rest -> length t = (length pre' + length w')%nat -> Forall (fun c => c <> 0) w' ->
     f = factor_of c2 ->
     (u <- lift (scan_units (pre ++ w ++ 0 :: rest) (N.of_nat (length t)) (if Nat.ltb 1 (factor_of c2) then S (length pre) else length pre));;
      match u with
      | Some (units, i) =>
         (if verbose then c <- lift (aget (pre ++ w ++ 0 :: rest) i);; ret tt else ret tt);;;
         ret (1%Z, Some match factor_of c2 with
            | O => fold_left add_digit ds 0
            | S f' => if (0 <? rz)%Z then scale f' units (((fold_left add_digit ds 0 * units) mod 2 ^ 64 + Z.to_N rz * 10) mod 2 ^ 64)
                      else scale (factor_of c2) units (fold_left add_digit ds 0)
            end)
      | None => r <- fail e E_RUNTIME_VALUE_OUT_OF_BOUNDS;; ret (r, None)
      end) s = match units_of w' with
               | Some u => Done (1%Z, Some (parsed_value (value_of ds) r (N.of_nat f) u)) s
               | None => Done ((-1)%Z, None) (add_err e E_RUNTIME_VALUE_OUT_OF_BOUNDS s)
               end).
  { intros pre' w' f Ei Ew El Hz ->. rewrite Ei, Ew, El.
    destruct (scan_units_ok pre' w' rest Hz) as (x & Ex & Hx). rewrite Ex.
    rewrite (bind_done _ _ _ _ _ _ _ (lift_some _ _ _)).
    destruct (units_of w') as [u|]; [|subst x; reflexivity].
    destruct Hx as (i & ch & -> & Ei2). rewrite Ei2.
    rewrite <- (value_eq ds rz r (factor_of c2) u R1 R2).
    destruct verbose; reflexivity. }
  destruct w as [|a w].
  - cbn [hd] in Ec2. subst c2. cbn [app] in *. rewrite (G pre [] O); try reflexivity; try assumption.
  - cbn [hd] in Ec2. subst c2. unfold ending. destruct (Nat.ltb 1 (factor_of a)) eqn:EB.
    + inversion_clear HZ. rewrite (G (pre ++ [a]) w (factor_of a)); try reflexivity; try assumption.
      * rewrite app_length. cbn. lia.
      * rewrite <- app_assoc. reflexivity.
      * rewrite LT2, app_length. cbn. lia.
    + rewrite (G pre (a :: w) (factor_of a)); try reflexivity; assumption.
Qed.

(* every text has this form *)
Lemma digits_prefix : forall t, exists ds rest, t = ds ++ rest /\ Forall numeric ds /\ ~ numeric (hd 0 rest).
Proof.
  induction t as [|c t (ds & rest & -> & H & H')].
  - exists [], []. split; [reflexivity|]. split; [constructor|]. cbn. unfold numeric. lia.
  - destruct (numeric_dec c).
    + exists (c :: ds), rest. split; [reflexivity|]. split; [now constructor|assumption].
    + exists [], (c :: ds ++ rest). split; [reflexivity|]. split; [constructor|assumption].
Qed.

Lemma text_form : forall d t, point d -> exists ds fr r sp w, t = ds ++ fr ++ sp ++ w /\ Forall numeric ds /\ fraction d fr r /\
  (fr = [] -> ~ numeric (hd 0 (sp ++ w))) /\ head_ok d fr (sp ++ w) /\ spacing sp w.
Proof.
  intros d t P. destruct (digits_prefix t) as (ds & t1 & -> & HD & HN).
  assert (exists fr r t2, t1 = fr ++ t2 /\ fraction d fr r /\ head_ok d fr t2 /\ (fr = [] -> ~ numeric (hd 0 t2))) as (fr & r & t2 & -> & HF & HH & HK).
  { destruct t1 as [|c t1].
    - exists [], 0, []. split; [reflexivity|]. split; [left; now split|]. split; [split; [assumption|]|intro; assumption].
      intros _. cbn. apply not_eq_sym. apply P.
    - destruct (N.eq_dec c d) as [->|].
      + destruct (digits_prefix t1) as (fs & t2 & -> & HD2 & HN2). exists (d :: fs), (hundredths fs), t2. split; [reflexivity|].
        split; [right; now exists fs|]. split; [split; [assumption|discriminate]|discriminate].
      + exists [], 0, (c :: t1). split; [reflexivity|]. split; [left; now split|]. split; [split; [assumption|]|intro; assumption].
        intros _. assumption. }
  assert (exists sp w, t2 = sp ++ w /\ spacing sp w) as (sp & w & -> & HS).
  { destruct t2 as [|c t2]; [exists [], []; split; [reflexivity|right; split; [reflexivity|discriminate]]|].
    destruct (N.eq_dec c 32) as [->|]; [exists [32], t2; split; [reflexivity|now left]|].
    exists [], (c :: t2). split; [reflexivity|]. right. now split. }
  exists ds, fr, r, sp, w. repeat split; assumption || apply HH.
Qed.
