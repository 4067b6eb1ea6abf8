(* Facts about the text functions of the command line tools. *)
From Coq Require Import String Ascii Arith NArith ZArith List Lia Bool.
From Verif Require Import Words Spec Machine WordFacts MachineFacts ToolStrings.
From Verif Require Export ToolVocab.
Import ListNotations.
Open Scope N_scope.

(* ------------------------------------------------------------ digest text *)

Lemma lt16_cases : forall n, n < 16 -> In n [0;1;2;3;4;5;6;7;8;9;10;11;12;13;14;15].
Proof. intros n H. assert (exists k, (k < 16)%nat /\ n = N.of_nat k) as (k & Hk & ->).
  { exists (N.to_nat n). lia. }
  do 16 (destruct k; [cbn; tauto|]). lia.
Qed.

Lemma digit_char_hex : forall n, n < 16 -> digit_char n = hex_digit n.
Proof. intros n H. apply lt16_cases in H. cbn in H. repeat (destruct H as [<-|H]; [reflexivity|]). destruct H. Qed.

Lemma hex_digit_inj : forall n m, n < 16 -> m < 16 -> hex_digit n = hex_digit m -> n = m.
Proof.
  intros n m Hn Hm. apply lt16_cases in Hn. apply lt16_cases in Hm. cbn in Hn, Hm.
  repeat (destruct Hn as [<-|Hn]); try (destruct Hn);
  repeat (destruct Hm as [<-|Hm]); try (destruct Hm); intros; try reflexivity; discriminate.
Qed.

Lemma hex_length : forall m, length (hex m) = (2 * length m)%nat.
Proof. induction m; [reflexivity|]. cbn [hex flat_map length app] in *. unfold hex in IHm. rewrite IHm. lia. Qed.
Lemma hex_app : forall m m', hex (m ++ m') = hex m ++ hex m'.
Proof. intros. unfold hex. apply flat_map_app. Qed.

Lemma hex_inj : forall m m', Forall is_byte m -> Forall is_byte m' -> hex m = hex m' -> m = m'.
Proof.
  induction m as [|b m IH]; intros [|b' m'] H H' E; try reflexivity; try discriminate.
  inversion_clear H. inversion_clear H'. cbn [hex flat_map app] in E. injection E as E1 E2 E3.
  unfold is_byte in *.
  assert (b / 16 < 16 /\ b' / 16 < 16) as [].
  { split; apply N.div_lt_upper_bound; lia. }
  assert (b mod 16 < 16 /\ b' mod 16 < 16) as [] by (split; apply N.mod_lt; lia).
  apply hex_digit_inj in E1; [|assumption..]. apply hex_digit_inj in E2; [|assumption..].
  f_equal; [|apply IH; assumption]. rewrite (N.div_mod b 16), (N.div_mod b' 16) by lia. lia.
Qed.

Lemma firstn_snoc : forall A (l : list A) n d, (n < length l)%nat -> firstn (S n) l = firstn n l ++ [nth n l d].
Proof. induction l; intros [|n] d H; cbn in *; try lia; [reflexivity|]. f_equal. apply IHl. lia. Qed.

Lemma copy_loop : forall dp sp s ld l n, get_obj s (fst dp) = Some (OBytes ld) -> get_obj s (fst sp) = Some (OBytes l) ->
  fst dp <> fst sp -> Forall is_byte ld ->
  snd dp + N.of_nat n <= N.of_nat (length ld) -> snd sp + 2 * N.of_nat n <= N.of_nat (length l) ->
  mfold (copy_digit_step dp sp) (seq 0 n) 0 s =
  Done (2 * N.of_nat n) (set_obj (fst sp) (OBytes (put l (snd sp) (hex (bytes_at s dp (N.of_nat n))))) s).
Proof.
  intros dp sp s ld l n Hd Hs Hne HB. induction n; intros Ld Ls.
  - cbn [seq mfold]. unfold ret. f_equal. unfold bytes_at. rewrite Hd. cbn [N.of_nat N.to_nat firstn hex flat_map].
    rewrite put_nil by lia. symmetry. apply set_id. assumption.
  - rewrite seq_S, mfold_app. erewrite bind_done by (apply IHn; lia). cbn [Nat.add mfold].
    set (m := bytes_at s dp (N.of_nat n)).
    assert (Lm : length m = n). { unfold m. rewrite bytes_at_length; [lia|]. exists ld. split; [assumption|lia]. }
    set (s1 := set_obj (fst sp) _ s).
    set (b := nth (N.to_nat (snd dp + N.of_nat n)) ld 0).
    assert (Hb : is_byte b). { apply Forall_nth; [assumption|]. lia. }
    assert (HM : bytes_at s dp (N.of_nat (S n)) = m ++ [b]).
    { unfold m, bytes_at. rewrite Hd. rewrite !Nat2N.id. rewrite (firstn_snoc _ _ _ 0) by (rewrite skipn_length; lia).
      f_equal. f_equal. unfold b. rewrite <- (firstn_skipn (N.to_nat (snd dp)) ld) at 2.
      rewrite app_nth2 by (rewrite firstn_length; lia). f_equal. rewrite firstn_length. lia. }
    assert (D1 : get_obj s1 (fst dp) = Some (OBytes ld)). { unfold s1. rewrite get_set_other by congruence. assumption. }
    assert (D2 : get_obj s1 (fst sp) = Some (OBytes (put l (snd sp) (hex m)))). { unfold s1. eapply get_set_same. eassumption. }
    assert (Lh : length (hex m) = (2 * n)%nat) by (rewrite hex_length; lia).
    assert (b / 16 < 16) by (unfold is_byte in Hb; apply N.div_lt_upper_bound; lia).
    assert (b mod 16 < 16) by (apply N.mod_lt; lia).
    unfold copy_digit_step at 1. rewrite bind_assoc.
    erewrite bind_done by (eapply read_byte_ok; [exact D1|cbn [ptr_add snd length]; lia]). rewrite bind_assoc. cbn [ptr_add fst snd]. fold b.
    erewrite bind_done by (eapply write_ok; [exact D2|cbn [ptr_add snd length]; rewrite put_length by lia; lia]). cbn [ptr_add fst snd].
    rewrite digit_char_hex by assumption.
    unfold s1. rewrite set_set. rewrite bind_assoc.
    replace (snd sp + 2 * N.of_nat n) with (snd sp + N.of_nat (length (hex m))) by lia.
    rewrite put_put by (cbn [length]; lia).
    set (s2 := set_obj (fst sp) _ s).
    erewrite bind_done by (eapply (read_byte_ok s2 _ ld); [unfold s2; cbn; rewrite get_set_other by congruence; assumption|cbn [ptr_add snd]; lia]).
    cbn [ptr_add fst snd]. fold b. rewrite bind_assoc.
    erewrite bind_done.
    2:{ eapply write_ok; [cbn [ptr_add fst]; unfold s2; eapply get_set_same; eassumption|].
        cbn [ptr_add snd length]. rewrite put_length by (rewrite app_length; cbn [length]; lia). lia. }
    cbn [ptr_add fst snd]. unfold s2. rewrite set_set.
    replace (snd sp + (2 * N.of_nat n + 1)) with (snd sp + N.of_nat (length (hex m ++ [hex_digit (b / 16)])))
      by (rewrite app_length; cbn [length]; lia).
    rewrite put_put by (rewrite app_length; cbn [length]; lia).
    rewrite digit_char_hex by assumption.
    unfold bind at 1. unfold ret at 1 2. f_equal; [lia|]. rewrite HM, hex_app, <- app_assoc. reflexivity.
Qed.

(* the order of the checks *)
Definition copy_error (E : env) (digest_hash : option ptr) (digest_hash_size : N) (string : option ptr) (string_size : N) : option err :=
  if (match digest_hash with None => true | _ => false end) then Some E_ARGUMENT_INVALID_VALUE
  else if ssize_max E <? digest_hash_size then Some E_ARGUMENT_VALUE_EXCEEDS_MAXIMUM
  else if (match string with None => true | _ => false end) then Some E_ARGUMENT_INVALID_VALUE
  else if ssize_max E <? string_size then Some E_ARGUMENT_VALUE_EXCEEDS_MAXIMUM
  else if string_size <? 2 * digest_hash_size + 1 then Some E_ARGUMENT_VALUE_TOO_SMALL
  else None.

Lemma copy_size : forall E n, n <= ssize_max E -> (2 * n + 1) mod size_mod E = 2 * n + 1.
Proof. intros E n H. apply N.mod_small. unfold ssize_max, size_mod in *. destruct (plat64 E); lia. Qed.

Lemma copy_fails : forall E dp n sp size e s, (dp = None \/ sp = None \/ ssize_max E < n \/ ssize_max E < size \/ size < 2 * n + 1) ->
  exists k, digest_hash_copy_to_string E dp n sp size e s = Done (-1)%Z (add_err e k s).
Proof.
  intros E dp n sp size e s H. unfold digest_hash_copy_to_string.
  destruct dp as [dp|]; [|eexists; reflexivity].
  destruct (N.ltb_spec (ssize_max E) n); [eexists; reflexivity|].
  destruct sp as [sp|]; [|eexists; reflexivity].
  destruct (N.ltb_spec (ssize_max E) size); [eexists; reflexivity|].
  rewrite copy_size by assumption.
  destruct (N.ltb_spec size (2 * n + 1)); [eexists; reflexivity|].
  exfalso. destruct H as [H|[H|[H|[H|H]]]]; try discriminate; lia.
Qed.

Lemma copy_succeeds : forall E dp n sp size e s, n <= ssize_max E -> 2 * n + 1 <= size <= ssize_max E ->
  good_state s -> accessible s dp n -> accessible s sp size -> fst dp <> fst sp ->
  exists l, get_obj s (fst sp) = Some (OBytes l) /\
  digest_hash_copy_to_string E (Some dp) n (Some sp) size e s =
  Done 1%Z (set_obj (fst sp) (OBytes (put l (snd sp) (hex (bytes_at s dp n) ++ [0]))) s).
Proof.
  intros E dp n sp size e s Hn Hsize G A (l & Hl & Ll) Hne. exists l. split; [assumption|].
  pose proof (bytes_at_length _ _ _ A) as Lb. destruct A as (ld & Hd & Ld).
  pose proof (hex_length (bytes_at s dp n)) as Lx.
  unfold digest_hash_copy_to_string.
  destruct (N.ltb_spec (ssize_max E) n); [lia|]. destruct (N.ltb_spec (ssize_max E) size); [lia|].
  rewrite copy_size by assumption. destruct (N.ltb_spec size (2 * n + 1)); [lia|].
  erewrite bind_done by (eapply copy_loop; try eassumption; [apply (G _ _ Hd)|lia|lia]).
  rewrite N2Nat.id.
  erewrite bind_done by (eapply write_ok; [cbn [ptr_add fst]; eapply get_set_same; eassumption|cbn [ptr_add snd length]; rewrite put_length by lia; lia]).
  unfold ret. f_equal. cbn [ptr_add fst snd]. rewrite set_set. do 2 f_equal.
  replace (snd sp + 2 * n) with (snd sp + N.of_nat (length (hex (bytes_at s dp n)))) by lia.
  apply put_put. cbn [length]. lia.
Qed.

(* ------------------------------------------------------- decimal numerals *)

Lemma value_of_snoc : forall l c, value_of (l ++ [c]) = value_of l * 10 + (c - 48).
Proof. intros. unfold value_of. now rewrite fold_left_app. Qed.

Lemma decimal_digits_ok : forall f n, n < 10 ^ N.of_nat f -> (0 < f)%nat -> numeral n (decimal_digits f n).
Proof.
  induction f; intros n H Hf; [lia|]. cbn [decimal_digits]. destruct (N.ltb_spec n 10).
  - unfold numeral. repeat split.
    + constructor; [unfold numeric; lia|constructor].
    + unfold value_of. cbn [fold_left]. lia.
    + discriminate.
    + cbn. lia.
  - assert (P : 10 ^ N.of_nat (S f) = 10 * 10 ^ N.of_nat f) by (rewrite Nat2N.inj_succ; apply N.pow_succ_r').
    assert (0 < f)%nat. { destruct f; [|lia]. cbn in H. lia. }
    destruct (IHf (n / 10)) as (D & V & NE & HD); [apply N.div_lt_upper_bound; lia|assumption|].
    assert (M10 : n mod 10 < 10) by (apply N.mod_lt; lia).
    repeat split.
    + apply Forall_app. split; [assumption|]. constructor; [unfold numeric; split; [apply N.le_add_r|clear - M10; lia]|constructor].
    + rewrite value_of_snoc, V. rewrite (N.div_mod n 10) at 3 by discriminate.
      generalize (n / 10), (n mod 10). clear. lia.
    + destruct (decimal_digits f (n / 10)); discriminate.
    + intros _. destruct (decimal_digits f (n / 10)) as [|c l] eqn:E; [congruence|]. cbn [app hd].
      destruct l as [|c' l]; [|apply HD; cbn; lia].
      unfold value_of in V. cbn [fold_left] in V. assert (1 <= n / 10) by (apply N.div_le_lower_bound; lia). lia.
Qed.

Lemma decimal_digits_length : forall f n k, n < 10 ^ N.of_nat k -> (0 < k)%nat -> (length (decimal_digits f n) <= k)%nat.
Proof.
  induction f; intros n k H Hk; cbn [decimal_digits]; [cbn; lia|]. destruct (N.ltb_spec n 10); [cbn; lia|].
  rewrite app_length. cbn [length].
  destruct k; [lia|]. assert (P : 10 ^ N.of_nat (S k) = 10 * 10 ^ N.of_nat k) by (rewrite Nat2N.inj_succ; apply N.pow_succ_r').
  assert (0 < k)%nat. { destruct k; [|lia]. cbn in H. lia. }
  specialize (IHf (n / 10) k). assert (n / 10 < 10 ^ N.of_nat k) by (apply N.div_lt_upper_bound; lia).
  specialize (IHf H2 H1). lia.
Qed.

Lemma print_decimal_numeral : forall n, n < 10 ^ 20 -> numeral n (print_decimal n).
Proof. intros. apply decimal_digits_ok; [exact H|lia]. Qed.

(* ----------------------------------------------------------- size to text *)

Lemma factor_loop_ok : forall fuel u x last f, 2 <= u -> x < u ^ (N.of_nat fuel + 1) ->
  exists k, factor_loop fuel u x last f = Some (x / u ^ k, (if k =? 0 then last else x / u ^ (k - 1)), f + k) /\
  x / u ^ k < u /\ (k = 0 \/ 1 <= x / u ^ k).
Proof.
  induction fuel; intros u x last f Hu H.
  - exists 0. change (N.of_nat 0 + 1) with 1 in H. cbn [factor_loop]. rewrite N.pow_1_r in H. destruct (N.ltb_spec x u); [|lia].
    rewrite N.pow_0_r, N.div_1_r. cbn [N.eqb]. rewrite N.add_0_r. repeat split; [assumption|tauto].
  - cbn [factor_loop]. destruct (N.ltb_spec x u).
    + exists 0. rewrite N.pow_0_r, N.div_1_r. cbn [N.eqb]. rewrite N.add_0_r. repeat split; [assumption|tauto].
    + destruct (N.eqb_spec u 0); [lia|].
      destruct (IHfuel u (x / u) x (f + 1)) as (k & E & B & C); [assumption| |].
      { apply N.div_lt_upper_bound; [lia|]. rewrite <- N.pow_succ_r'. replace (N.succ (N.of_nat fuel + 1)) with (N.of_nat (S fuel) + 1) by lia. assumption. }
      assert (Q : forall j, x / u / u ^ j = x / u ^ (j + 1)).
      { intro j. rewrite N.div_div by (try apply N.pow_nonzero; lia). f_equal. rewrite N.add_1_r, N.pow_succ_r'. reflexivity. }
      exists (k + 1). rewrite E. rewrite Q in *. split; [|split; [assumption|]].
      * f_equal. f_equal; [f_equal|lia]. destruct (N.eqb_spec (k + 1) 0); [lia|]. replace (k + 1 - 1) with k by lia.
        destruct (N.eqb_spec k 0) as [K0|]; [now rewrite K0, N.pow_0_r, N.div_1_r|]. rewrite Q. do 2 f_equal. lia.
      * right. destruct C as [->|C]; [|assumption]. cbn [N.add]. rewrite N.pow_1_r. apply N.div_le_lower_bound; lia.
Qed.

(* the tenth that is printed: the hundreds of what remains in the next smaller unit *)
Definition tenth (units size f : N) : N := N.min 9 (size / units ^ (f - 1) mod units / 100).

Definition created (d units size : N) (text : list N) : Prop :=
  exists f q number, scaled units size f q /\ numeral q number /\ text = size_text d units f q (tenth units size f) number.

Lemma snprintf_fits : forall target size text, N.of_nat (length text) < size -> size <= N.of_nat (length target) ->
  snprintf target size text = Some (Z.of_nat (length text), text ++ [0] ++ skipn (S (length text)) target).
Proof.
  intros target size text H L. unfold snprintf. destruct (N.eqb_spec size 0); [lia|].
  rewrite firstn_all2 by lia. rewrite app_length. cbn [length].
  destruct (N.leb_spec (N.of_nat (length text + 1)) (N.of_nat (length target))); [|lia].
  do 2 f_equal. rewrite <- app_assoc. do 2 f_equal. f_equal. lia.
Qed.

Lemma scaled_bound : forall units size f q, 1000 <= units -> size < 2 ^ 64 -> scaled units size f q -> f <= 6.
Proof.
  intros units size f q Hu Hs (-> & _ & [->|H]); [lia|]. destruct (N.le_gt_cases f 6); [assumption|].
  exfalso. assert (units ^ f <> 0) by (apply N.pow_nonzero; lia).
  assert (units ^ f <= size). { pose proof (N.mul_div_le size (units ^ f)). nia. }
  assert (1000 ^ 7 <= units ^ f). { transitivity (units ^ 7); [apply N.pow_le_mono_l; assumption|apply N.pow_le_mono_r; lia]. }
  assert (2 ^ 64 < 1000 ^ 7) by reflexivity. lia.
Qed.

Lemma to_int8_small : forall n, n < 128 -> to_int8 n = Z.of_N n.
Proof. intros. unfold to_int8. rewrite N.mod_small by lia. destruct (N.ltb_spec n 128); [reflexivity|lia]. Qed.

Lemma create_ok : forall d target len size units e s, units = 1000 \/ units = 1024 -> size < 2 ^ 64 ->
  9 <= len <= N.of_nat (length target) ->
  exists text, created d units size text /\ (length text <= 8)%nat /\
  byte_size_string_create (Some d) (Some target) len size units e s =
  Done (1%Z, Some (text ++ [0] ++ skipn (S (length text)) target)) s.
Proof.
  intros d target len size units e s Hu Hs Hl. unfold byte_size_string_create.
  destruct (N.ltb_spec len 9); [lia|].
  destruct (factor_loop_ok 65 units size 0 0) as (f & EF & B & C); [lia| |].
  { assert (2 ^ 66 <= units ^ (N.of_nat 65 + 1)) by (apply N.pow_le_mono_l; lia). change (2 ^ 66) with (4 * 2 ^ 64) in *. lia. }
  rewrite EF, N.add_0_l.
  set (q := size / units ^ f) in *.
  assert (SC : scaled units size f q) by (split; [reflexivity|split; assumption]).
  assert (F6 : f <= 6) by (eapply scaled_bound; try eassumption; lia).
  assert (PF : factor_string f = prefix_letter f).
  { assert (exists k, (k <= 6)%nat /\ f = N.of_nat k) as (k & Hk & ->) by (exists (N.to_nat f); lia).
    do 7 (destruct k; [reflexivity|]). lia. }
  assert (LP : (length (prefix_letter f) <= 1)%nat).
  { assert (exists k, (k <= 6)%nat /\ f = N.of_nat k) as (k & Hk & ->) by (exists (N.to_nat f); lia).
    do 7 (destruct k; [cbn; lia|]). lia. }
  assert (UF : (units <=? size) = negb (f =? 0)).
  { destruct C as [->|C].
    - unfold q in B. rewrite N.pow_0_r, N.div_1_r in B. destruct (N.leb_spec units size); [lia|reflexivity].
    - destruct (N.eqb_spec f 0) as [->|NF].
      + unfold q in B. rewrite N.pow_0_r, N.div_1_r in B. destruct (N.leb_spec units size); [lia|reflexivity].
      + destruct (N.leb_spec units size); [reflexivity|exfalso].
        unfold q in C. assert (units ^ 1 <= units ^ f) by (apply N.pow_le_mono_r; lia). rewrite N.pow_1_r in *.
        rewrite N.div_small in C by lia. lia. }
  assert (US : (if (size <? 1024) || (units =? 1000) then Some [66] else if units =? 1024 then Some [105; 66] else None)
               = Some (if f =? 0 then chars "B" else unit_text units)).
  { unfold unit_text. destruct Hu as [-> | ->]; cbn [N.eqb Pos.eqb orb]; [rewrite orb_true_r; now destruct (f =? 0)|].
    rewrite orb_false_r. destruct (N.eqb_spec f 0) as [F0|F0].
    - cbn [negb] in UF. apply N.leb_gt in UF. destruct (N.ltb_spec size 1024); [reflexivity|lia].
    - cbn [negb] in UF. apply N.leb_le in UF. destruct (N.ltb_spec size 1024); [lia|reflexivity]. }
  rewrite US, UF.
  set (ut := if f =? 0 then chars "B" else unit_text units).
  assert (LU : (length ut <= 2)%nat).
  { unfold ut, unit_text. destruct (f =? 0); [cbn; lia|]. destruct (units =? 1000); cbn; lia. }
  destruct (N.ltb_spec 8 f); [lia|].
  rewrite (bind_done _ _ _ _ _ _ _ (lift_some _ _ _)). cbv beta iota.
  assert (NM : numeral q (print_decimal q)) by (apply print_decimal_numeral; lia).
  destruct (N.eqb_spec f 0) as [F0|F0]; cbn [negb andb].
  - (* no fraction *)
    cbv beta iota zeta. change (9 <? -1)%Z with false. cbv iota. change (0 <=? -1)%Z with false. cbv iota.
    destruct (N.ltb_spec 8 f); [lia|].
    rewrite (bind_done _ _ _ _ _ _ _ (lift_some _ _ _)).
    set (text := print_decimal q ++ [] ++ [32] ++ factor_string f ++ ut).
    assert (LT : (length text <= 8)%nat).
    { unfold text. rewrite !app_length, PF. cbn [length].
      assert (length (print_decimal q) <= 4)%nat by (apply decimal_digits_length; [change (10 ^ N.of_nat 4) with 10000; lia|lia]). lia. }
    exists text. split; [|split; [assumption|]].
    + exists f, q, (print_decimal q). split; [assumption|]. split; [assumption|]. unfold text, size_text. rewrite PF.
      subst f. reflexivity.
    + rewrite snprintf_fits by lia. rewrite (bind_done _ _ _ _ _ _ _ (lift_some _ _ _)). cbv beta iota.
      destruct (Z.ltb_spec (Z.of_nat (length text)) 0); [lia|]. cbn [orb].
      destruct (N.ltb_spec len (Z.to_N (Z.of_nat (length text)))); [lia|]. reflexivity.
  - destruct (N.ltb_spec q 10).
    + set (rem := size / units ^ (f - 1) mod units).
      assert (rem < units) by (apply N.mod_lt; lia).
      assert (rem / 100 < 11) by (apply N.div_lt_upper_bound; lia).
      rewrite to_int8_small by lia.
      assert (T : (if (9 <? Z.of_N (rem / 100))%Z then 9 else Z.of_N (rem / 100))%Z = Z.of_N (tenth units size f)).
      { unfold tenth. fold rem. destruct (Z.ltb_spec 9 (Z.of_N (rem / 100))); lia. }
      cbv zeta. rewrite T. destruct (Z.leb_spec 0 (Z.of_N (tenth units size f))); [|lia]. rewrite N2Z.id.
      assert (T9 : tenth units size f < 10) by (unfold tenth; lia).
      assert (PD : print_decimal (tenth units size f) = [48 + tenth units size f]).
      { unfold print_decimal. cbn [decimal_digits]. destruct (N.ltb_spec (tenth units size f) 10); [reflexivity|lia]. }
      destruct (N.ltb_spec 8 f); [lia|].
      rewrite (bind_done _ _ _ _ _ _ _ (lift_some _ _ _)).
      rewrite PD.
      set (text := print_decimal q ++ ([d] ++ [48 + tenth units size f]) ++ [32] ++ factor_string f ++ ut).
      assert (LT : (length text <= 8)%nat).
      { unfold text. rewrite !app_length, PF. cbn [length].
        assert (length (print_decimal q) <= 1)%nat by (apply decimal_digits_length; [change (10 ^ N.of_nat 1) with 10; lia|lia]). lia. }
      exists text. split; [|split; [assumption|]].
      * exists f, q, (print_decimal q). split; [assumption|]. split; [assumption|]. unfold text, size_text. rewrite PF.
        destruct (N.eqb_spec f 0); [lia|]. destruct (N.leb_spec 10 q); [lia|]. reflexivity.
      * rewrite snprintf_fits by lia. rewrite (bind_done _ _ _ _ _ _ _ (lift_some _ _ _)). cbv beta iota.
        destruct (Z.ltb_spec (Z.of_nat (length text)) 0); [lia|]. cbn [orb].
        destruct (N.ltb_spec len (Z.to_N (Z.of_nat (length text)))); [lia|]. reflexivity.
    + cbv beta iota zeta. change (9 <? -1)%Z with false. cbv iota. change (0 <=? -1)%Z with false. cbv iota.
      destruct (N.ltb_spec 8 f); [lia|].
      rewrite (bind_done _ _ _ _ _ _ _ (lift_some _ _ _)).
      set (text := print_decimal q ++ [] ++ [32] ++ factor_string f ++ ut).
      assert (LT : (length text <= 8)%nat).
      { unfold text. rewrite !app_length, PF. cbn [length].
        assert (length (print_decimal q) <= 4)%nat by (apply decimal_digits_length; [change (10 ^ N.of_nat 4) with 10000; lia|lia]). lia. }
      exists text. split; [|split; [assumption|]].
      * exists f, q, (print_decimal q). split; [assumption|]. split; [assumption|]. unfold text, size_text. rewrite PF.
        destruct (N.eqb_spec f 0); [lia|]. destruct (N.leb_spec 10 q); [|lia]. reflexivity.
      * rewrite snprintf_fits by lia. rewrite (bind_done _ _ _ _ _ _ _ (lift_some _ _ _)). cbv beta iota.
        destruct (Z.ltb_spec (Z.of_nat (length text)) 0); [lia|]. cbn [orb].
        destruct (N.ltb_spec len (Z.to_N (Z.of_nat (length text)))); [lia|]. reflexivity.
Qed.
