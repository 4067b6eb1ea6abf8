(* The statements about texts and sizes, as lemmas. *)
From Coq Require Import String Ascii Arith NArith ZArith List Lia Bool.
From Verif Require Import Words Spec Machine WordFacts MachineFacts ToolStrings ToolStringsFacts ToolConvertFacts.
Import ListNotations.
Open Scope N_scope.

(* ------------------------------------------------------------ digest text *)

Lemma set_obj_unchanged_but : forall s q l l' n, get_obj s (fst q) = Some (OBytes l) -> length l' = length l ->
  (forall i, (N.of_nat i < snd q \/ snd q + n <= N.of_nat i) -> nth_error l' i = nth_error l i) ->
  unchanged_but s (set_obj (fst q) (OBytes l') s) q n.
Proof.
  intros s q l l' n H L R p c Hc. unfold get_obj in H. split.
  - intro Hp. unfold set_obj. destruct (nth_error (mem s) (fst q)); [|assumption]. cbn. rewrite replace_other by congruence. assumption.
  - intros ->. rewrite Hc in H. destruct (live c) eqn:Lv; [|discriminate]. injection H as H. exists l, l'. split; [assumption|].
    split; [|split; assumption]. unfold set_obj. rewrite Hc. cbn. rewrite replace_same.
    + now rewrite Lv.
    + apply nth_error_Some. congruence.
Qed.

Lemma put_outside : forall l off d i, off + N.of_nat (length d) <= N.of_nat (length l) ->
  (N.of_nat i < off \/ off + N.of_nat (length d) <= N.of_nat i) -> nth_error (put l off d) i = nth_error l i.
Proof.
  intros l off d i L H. unfold put. destruct H as [H|H].
  - rewrite nth_error_app1 by (rewrite firstn_length; lia).
    rewrite <- (firstn_skipn (N.to_nat off) l) at 2. rewrite nth_error_app1 by (rewrite firstn_length; lia). reflexivity.
  - rewrite app_assoc. rewrite nth_error_app2 by (rewrite app_length, firstn_length; lia).
    rewrite app_length, firstn_length, Nat.min_l by lia.
    rewrite <- (firstn_skipn (N.to_nat off + length d) l) at 2.
    rewrite nth_error_app2 by (rewrite firstn_length; lia). rewrite firstn_length, Nat.min_l by lia. reflexivity.
Qed.

Lemma bytes_at_put : forall s q l d, get_obj s (fst q) = Some (OBytes l) -> snd q + N.of_nat (length d) <= N.of_nat (length l) ->
  bytes_at (set_obj (fst q) (OBytes (put l (snd q) d)) s) q (N.of_nat (length d)) = d.
Proof.
  intros s q l d H L. unfold bytes_at. erewrite get_set_same by eassumption. rewrite Nat2N.id. apply skipn_firstn_app. lia.
Qed.

Lemma hex_of_digest : forall E dp n sp size e s, n <= ssize_max E -> 2 * n + 1 <= size <= ssize_max E ->
  good_state s -> accessible s dp n -> accessible s sp size -> fst dp <> fst sp ->
  exists s', digest_hash_copy_to_string E (Some dp) n (Some sp) size e s = Done 1%Z s' /\
  bytes_at s' sp (2 * n + 1) = hex (bytes_at s dp n) ++ [0] /\
  unchanged_but s s' sp (2 * n + 1) /\ errs s' = errs s /\ tries s' = tries s /\ length (mem s') = length (mem s).
Proof.
  intros E dp n sp size e s Hn Hsize G A A' Hne.
  destruct (copy_succeeds E dp n sp size e s Hn Hsize G A A' Hne) as (l & Hl & ->).
  eexists. split; [reflexivity|].
  assert (L : N.of_nat (length (hex (bytes_at s dp n) ++ [0])) = 2 * n + 1).
  { rewrite app_length, hex_length, bytes_at_length by assumption. cbn [length]. lia. }
  destruct A' as (l' & Hl' & Ll). assert (l' = l) by congruence. subst l'.
  split; [|split; [|split; [|split]]].
  - rewrite <- L. apply bytes_at_put; [assumption|lia].
  - eapply set_obj_unchanged_but; [eassumption|apply put_length; lia|]. intros i Hi. apply put_outside; lia.
  - apply set_obj_errs.
  - apply set_obj_tries.
  - apply set_obj_length.
Qed.

Lemma hex_different : forall m m', Forall is_byte m -> Forall is_byte m' -> m <> m' -> hex m <> hex m'.
Proof. intros m m' H H' N E. apply N. now apply hex_inj. Qed.

Lemma hex_is_string : forall m, Forall is_byte m -> Forall (fun c => 48 <= c <= 57 \/ 97 <= c <= 102) (hex m).
Proof.
  assert (K : forall n, n < 16 -> 48 <= hex_digit n <= 57 \/ 97 <= hex_digit n <= 102).
  { intros n H. apply lt16_cases in H. cbn in H. repeat (destruct H as [<-|H]; [vm_compute; first [left; split; discriminate | right; split; discriminate]|]). destruct H. }
  induction m; intro H; [constructor|]. inversion_clear H. unfold is_byte in *. cbn [hex flat_map app]. constructor.
  - apply K. apply N.div_lt_upper_bound; lia.
  - constructor; [apply K; apply N.mod_lt; lia|]. now apply IHm.
Qed.

(* --------------------------------------------------------- sizes to texts *)

Lemma tenth_1000 : forall size f, 1 <= f -> 10 * size / 1000 ^ f = 10 * (size / 1000 ^ f) + tenth 1000 size f /\ tenth 1000 size f < 10.
Proof.
  intros size f Hf. unfold tenth.
  assert (P : 1000 ^ f = 1000 ^ (f - 1) * 1000).
  { replace f with (N.succ (f - 1)) at 1 by lia. rewrite N.pow_succ_r'. apply N.mul_comm. }
  assert (Z : 1000 ^ (f - 1) <> 0) by (apply N.pow_nonzero; discriminate).
  rewrite P. set (p := 1000 ^ (f - 1)) in *. rewrite <- !N.div_div by (assumption || discriminate).
  set (x := size / p).
  assert (X : 10 * size / p / 1000 = x / 100).
  { unfold x. rewrite !N.div_div by (assumption || discriminate). replace (p * 1000) with (10 * (p * 100)) by lia.
    apply N.div_mul_cancel_l; [nia|discriminate]. }
  rewrite X. pose proof (N.div_mod x 1000 ltac:(discriminate)) as D. pose proof (N.mod_lt x 1000 ltac:(discriminate)) as M.
  set (q := x / 1000) in *. set (r := x mod 1000) in *. rewrite D.
  replace (1000 * q + r) with (r + (10 * q) * 100) by lia. rewrite N.div_add by discriminate.
  assert (r / 100 < 10) by (apply N.div_lt_upper_bound; lia). lia.
Qed.

Lemma scale_bounds : forall p size y m, size = p * y + m -> m < p -> p * (10 * y) <= 10 * size /\ 10 * size < p * (10 * y + 10).
Proof. intros. subst. nia. Qed.

Lemma tenth_1024 : forall size f, 1 <= f ->
  10 * size / 1024 ^ f <= 10 * (size / 1024 ^ f) + tenth 1024 size f <= 10 * size / 1024 ^ f + 1 /\ tenth 1024 size f < 10.
Proof.
  intros size f Hf. unfold tenth.
  assert (P : 1024 ^ f = 1024 ^ (f - 1) * 1024).
  { replace f with (N.succ (f - 1)) at 1 by lia. rewrite N.pow_succ_r'. apply N.mul_comm. }
  assert (Z : 1024 ^ (f - 1) <> 0) by (apply N.pow_nonzero; discriminate).
  rewrite P. set (p := 1024 ^ (f - 1)) in *. rewrite <- !N.div_div by (assumption || discriminate).
  set (x := size / p).
  assert (X : 10 * x <= 10 * size / p <= 10 * x + 9).
  { unfold x. pose proof (N.div_mod size p Z). pose proof (N.mod_lt size p Z). set (y := size / p) in *. split.
    - apply N.div_le_lower_bound; [assumption|]. apply (scale_bounds _ _ _ _ H H0).
    - apply N.lt_succ_r. replace (N.succ (10 * y + 9)) with (10 * y + 10) by (clear; lia).
      apply N.div_lt_upper_bound; [assumption|]. apply (scale_bounds _ _ _ _ H H0). }
  set (w := 10 * size / p) in *.
  pose proof (N.div_mod x 1024 ltac:(discriminate)) as D. pose proof (N.mod_lt x 1024 ltac:(discriminate)) as M.
  set (q := x / 1024) in *. set (r := x mod 1024) in *.
  pose proof (N.div_mod r 100 ltac:(discriminate)) as D2. pose proof (N.mod_lt r 100 ltac:(discriminate)) as M2.
  set (h := r / 100) in *. set (l := r mod 100) in *.
  assert (B : w / 1024 <= 10 * q + N.min 9 h).
  { enough (w / 1024 < 10 * q + N.min 9 h + 1) by lia. apply N.div_lt_upper_bound; [discriminate|]. lia. }
  assert (C : 10 * q + N.min 9 h - 1 <= w / 1024).
  { apply N.div_le_lower_bound; [discriminate|]. lia. }
  lia.
Qed.

Lemma create_1000 : forall d target len size e s, size < 2 ^ 64 -> 9 <= len <= N.of_nat (length target) ->
  exists f q t number, scaled 1000 size f q /\ numeral q number /\ t < 10 /\ 10 * size / 1000 ^ f = 10 * q + (if f =? 0 then 0 else t) /\
  let text := size_text d 1000 f q t number in (length text <= 8)%nat /\
  byte_size_string_create (Some d) (Some target) len size 1000 e s =
  Done (1%Z, Some (text ++ [0] ++ skipn (S (length text)) target)) s.
Proof.
  intros d target len size e s Hs Hl.
  destruct (create_ok d target len size 1000 e s (or_introl eq_refl) Hs Hl) as (text & (f & q & number & SC & NM & ET) & LT & R).
  subst text. exists f, q, (tenth 1000 size f), number. split; [assumption|]. split; [assumption|].
  split; [unfold tenth; lia|]. split; [|split; assumption].
  destruct SC as (-> & _). destruct (N.eqb_spec f 0) as [->|]; [rewrite N.pow_0_r, !N.div_1_r; lia|].
  apply tenth_1000. lia.
Qed.

Lemma create_1024 : forall d target len size e s, size < 2 ^ 64 -> 9 <= len <= N.of_nat (length target) ->
  exists f q t number, scaled 1024 size f q /\ numeral q number /\ t < 10 /\
  10 * size / 1024 ^ f <= 10 * q + (if f =? 0 then 0 else t) <= 10 * size / 1024 ^ f + 1 /\
  let text := size_text d 1024 f q t number in (length text <= 8)%nat /\
  byte_size_string_create (Some d) (Some target) len size 1024 e s =
  Done (1%Z, Some (text ++ [0] ++ skipn (S (length text)) target)) s.
Proof.
  intros d target len size e s Hs Hl.
  destruct (create_ok d target len size 1024 e s (or_intror eq_refl) Hs Hl) as (text & (f & q & number & SC & NM & ET) & LT & R).
  subst text. exists f, q, (tenth 1024 size f), number. split; [assumption|]. split; [assumption|].
  split; [unfold tenth; lia|]. split; [|split; assumption].
  destruct SC as (-> & _). destruct (N.eqb_spec f 0) as [->|]; [rewrite N.pow_0_r, !N.div_1_r; lia|].
  apply tenth_1024. lia.
Qed.

Lemma create_fails : forall d target len size units e s, target = None \/ len < 9 ->
  exists k, byte_size_string_create d target len size units e s = Done ((-1)%Z, target) (add_err e k s).
Proof.
  intros d target len size units e s H. unfold byte_size_string_create. destruct target as [t|]; [|eexists; reflexivity].
  destruct (N.ltb_spec len 9); [eexists; reflexivity|]. destruct H; [discriminate|lia].
Qed.

(* --------------------------------------------------------- texts to sizes *)

Lemma letters_cases : forall l f, In (l, f) letters -> l = EmptyString /\ f = 0 \/
  exists c, chars l = [c] /\ N.of_nat (factor_of c) = f /\ 2 <= f <= 8 /\ c <> 0 /\ c <> 32 /\ ~ numeric c /\ (65 <= c <= 90 \/ 97 <= c <= 122).
Proof.
  intros l f H. unfold letters in H. cbn [In] in H.
  repeat (destruct H as [H|H]; [injection H as <- <-; first [left; split; reflexivity |
    right; eexists; split; [reflexivity|]; split; [reflexivity|]; split; [lia|]; split; [discriminate|]; split; [discriminate|]; split; [unfold numeric; vm_compute; intros []; congruence |]; vm_compute; first [left; split; discriminate | right; split; discriminate] ]|]).
  destruct H.
Qed.

Lemma ending_ok : forall l f u ut tail, In (l, f) letters -> In (ut, u) units_texts \/ (ut = EmptyString /\ tail = [] /\ u = 1024) ->
  let w := chars l ++ chars ut ++ tail in
  ending w = (f, Some u) /\ ~ numeric (hd 0 w) /\ hd 0 w <> 32 /\ (forall d, point d -> hd 0 w <> d) /\
  Forall (fun c => c <> 0) (chars l ++ chars ut).
Proof.
  intros l f u ut tail HL HU w.
  assert (U : units_of (chars ut ++ tail) = Some u /\ ~ numeric (hd 0 (chars ut ++ tail)) /\ hd 0 (chars ut ++ tail) <> 32 /\
      (forall d, point d -> hd 0 (chars ut ++ tail) <> d) /\ (Nat.ltb 1 (factor_of (hd 0 (chars ut ++ tail))) = false) /\
      N.of_nat (factor_of (hd 0 (chars ut ++ tail))) = 0 /\ Forall (fun c => c <> 0) (chars ut) /\
      ending (chars ut ++ tail) = (0, Some u)).
  { destruct HU as [HU|(-> & -> & ->)].
    - unfold units_texts in HU. cbn [In] in HU.
      repeat (destruct HU as [HU|HU]; [injection HU as <- <-; cbn; repeat split; try discriminate;
        [intros []; lia | intros d (? & ? & ? & ? & ?) <-; lia | repeat constructor; discriminate]|]).
      destruct HU.
    - cbn. repeat split; try discriminate; [intros []; lia|intros d (? & ? & ? & ? & ?) <-; congruence|constructor]. }
  destruct U as (U1 & U2 & U3 & U4 & U5 & U6 & U7 & U8).
  destruct (letters_cases l f HL) as [(-> & ->)|(c & Ec & Ef & Hf & C0 & C32 & CN & CL)]; unfold w.
  - cbn [chars list_ascii_of_string map app]. repeat split; assumption.
  - rewrite Ec. cbn [app hd]. repeat split; try assumption.
    + unfold ending. destruct (Nat.ltb_spec 1 (factor_of c)); [|lia]. rewrite U1, Ef. reflexivity.
    + intros d (? & ? & ? & ? & ?) <-. tauto.
    + constructor; assumption.
Qed.

Lemma convert_accepts : forall verbose d ds fr r sp l f ut u tail rest e s, point d -> text_ok d ds fr r sp ->
  In (l, f) letters -> In (ut, u) units_texts \/ (ut = EmptyString /\ tail = [] /\ u = 1024) -> Forall (fun c => c <> 0) tail ->
  let t := ds ++ fr ++ sp ++ chars l ++ chars ut ++ tail in
  byte_size_string_convert verbose (Some d) (Some (t ++ 0 :: rest)) (N.of_nat (length t)) true e s =
  Done (1%Z, Some (parsed_value (value_of ds) r f u)) s.
Proof.
  intros verbose d ds fr r sp l f ut u tail rest e s P (HD & HF & HS) HL HU HT t.
  destruct (ending_ok l f u ut tail HL HU) as (EE & E1 & E2 & E3 & E4).
  pose proof (convert_run verbose d ds fr r sp (chars l ++ chars ut ++ tail) rest e s P HD HF) as R.
  unfold t. rewrite R.
  - rewrite EE. reflexivity.
  - destruct HS as [-> | ->]; intros _; [assumption|cbn; unfold numeric; lia].
  - destruct HS as [-> | ->]; split.
    + assumption.
    + intros _. now apply E3.
    + cbn. unfold numeric. lia.
    + intros _. cbn. destruct P as (_ & P & _). congruence.
  - destruct HS as [-> | ->]; [right; split; [reflexivity|assumption]|now left].
  - rewrite app_assoc. apply Forall_app. now split.
Qed.

Lemma convert_rejects_kilo : forall verbose d ds fr r sp k tail rest e s, point d -> text_ok d ds fr r sp ->
  k = 75 \/ k = 107 -> Forall (fun c => c <> 0) tail ->
  let t := ds ++ fr ++ sp ++ k :: tail in
  byte_size_string_convert verbose (Some d) (Some (t ++ 0 :: rest)) (N.of_nat (length t)) true e s =
  Done ((-1)%Z, None) (add_err e E_RUNTIME_VALUE_OUT_OF_BOUNDS s).
Proof.
  intros verbose d ds fr r sp k tail rest e s P (HD & HF & HS) HK HT t.
  pose proof (convert_run verbose d ds fr r sp (k :: tail) rest e s P HD HF) as R.
  unfold t. destruct P as (P0 & P1 & P2 & P3 & P4). rewrite R.
  - destruct HK as [-> | ->]; reflexivity.
  - destruct HS as [-> | ->]; intros _; cbn; unfold numeric; lia.
  - destruct HS as [-> | ->]; split; cbn [app hd]; try (unfold numeric; lia); intros _; lia.
  - destruct HS as [-> | ->]; [right; split; [reflexivity|cbn; lia]|now left].
  - constructor; [lia|assumption].
Qed.

Lemma units_of_form : forall w u, units_of w = Some u ->
  exists ut tail, w = chars ut ++ tail /\ (In (ut, u) units_texts \/ (ut = EmptyString /\ tail = [] /\ u = 1024)).
Proof.
  intros w u H. destruct w as [|c w].
  - injection H as <-. exists EmptyString, []. split; [reflexivity|]. right. repeat split.
  - destruct (N.eq_dec c 66) as [->|N66].
    + cbn in H. injection H as <-. exists "B"%string, w. split; [reflexivity|]. left. now left.
    + destruct (N.eq_dec c 105) as [->|N105].
      * destruct w as [|c w]; [discriminate|]. destruct (N.eq_dec c 66) as [->|N].
        -- cbn in H. injection H as <-. exists "iB"%string, w. split; [reflexivity|]. left. right. now left.
        -- exfalso. destruct c as [|p]; [discriminate|]. cbn [units_of] in H. do 7 (try destruct p as [p|p|]); try discriminate; congruence.
      * exfalso. destruct c as [|p]; [discriminate|]. cbn [units_of] in H. do 7 (try destruct p as [p|p|]); try discriminate; congruence.
Qed.

Lemma factor_of_form : forall c, (1 < factor_of c)%nat -> exists l, chars l = [c] /\ In (l, N.of_nat (factor_of c)) letters.
Proof.
  intros c. unfold factor_of.
  destruct ((c =? 107) || (c =? 75)); [lia|].
  repeat match goal with
  | |- context [(?c =? ?a) || (?c =? ?b)] =>
      destruct (N.eqb_spec c a) as [->|]; [cbn [orb N.eqb Pos.eqb]; intros _; first
        [ exists "m"%string; split; [reflexivity|cbn; tauto] | exists "M"%string; split; [reflexivity|cbn; tauto]
        | exists "g"%string; split; [reflexivity|cbn; tauto] | exists "t"%string; split; [reflexivity|cbn; tauto]
        | exists "p"%string; split; [reflexivity|cbn; tauto] | exists "e"%string; split; [reflexivity|cbn; tauto]
        | exists "z"%string; split; [reflexivity|cbn; tauto] | exists "y"%string; split; [reflexivity|cbn; tauto] ] |];
      destruct (N.eqb_spec c b) as [->|]; [cbn [orb N.eqb Pos.eqb]; intros _; first
        [ exists "M"%string; split; [reflexivity|cbn; tauto] | exists "G"%string; split; [reflexivity|cbn; tauto]
        | exists "T"%string; split; [reflexivity|cbn; tauto] | exists "P"%string; split; [reflexivity|cbn; tauto]
        | exists "E"%string; split; [reflexivity|cbn; tauto] | exists "Z"%string; split; [reflexivity|cbn; tauto]
        | exists "Y"%string; split; [reflexivity|cbn; tauto] ] |]; cbn [orb]
  end. lia.
Qed.

Lemma ending_form : forall w f u, ending w = (f, Some u) ->
  exists l ut tail, w = chars l ++ chars ut ++ tail /\ In (l, f) letters /\ (In (ut, u) units_texts \/ (ut = EmptyString /\ tail = [] /\ u = 1024)).
Proof.
  intros w f u H. destruct w as [|c w].
  - injection H as <- <-. exists EmptyString, EmptyString, []. split; [reflexivity|]. split; [cbn; tauto|]. right. repeat split.
  - unfold ending in H. destruct (Nat.ltb_spec 1 (factor_of c)) as [L|L].
    + injection H as <- HU. destruct (units_of_form _ _ HU) as (ut & tail & -> & HI). destruct (factor_of_form c L) as (l & El & HL).
      exists l, ut, tail. split; [rewrite El; reflexivity|]. split; assumption.
    + injection H as Hf HU. change (units_of (c :: w) = Some u) in HU. assert (F : factor_of c = O \/ factor_of c = 1%nat) by lia. destruct F as [F|F].
      * rewrite F in Hf. cbn in Hf. subst f. destruct (units_of_form _ _ HU) as (ut & tail & Ew & HI).
        exists EmptyString, ut, tail. split; [exact Ew|]. split; [cbn; tauto|assumption].
      * exfalso. unfold factor_of in F.
        destruct (N.eqb_spec c 107) as [->|]; [cbn in HU; discriminate|]. destruct (N.eqb_spec c 75) as [->|]; [cbn in HU; discriminate|].
        cbn [orb] in F. repeat (destruct (_ || _) in F; [lia|]). lia.
Qed.

Lemma convert_total : forall verbose d t rest e s, point d -> Forall (fun c => c <> 0) t ->
  (exists ds fr r sp l f ut u tail, t = ds ++ fr ++ sp ++ chars l ++ chars ut ++ tail /\ text_ok d ds fr r sp /\
     In (l, f) letters /\ (In (ut, u) units_texts \/ (ut = EmptyString /\ tail = [] /\ u = 1024)) /\
     byte_size_string_convert verbose (Some d) (Some (t ++ 0 :: rest)) (N.of_nat (length t)) true e s =
     Done (1%Z, Some (parsed_value (value_of ds) r f u)) s) \/
  byte_size_string_convert verbose (Some d) (Some (t ++ 0 :: rest)) (N.of_nat (length t)) true e s =
  Done ((-1)%Z, None) (add_err e E_RUNTIME_VALUE_OUT_OF_BOUNDS s).
Proof.
  intros verbose d t rest e s P HZ. destruct (text_form d t P) as (ds & fr & r & sp & w & -> & HD & HF & H1 & H2 & HS).
  assert (HW : Forall (fun c => c <> 0) w).
  { apply Forall_app in HZ. destruct HZ as [_ HZ]. apply Forall_app in HZ. destruct HZ as [_ HZ]. apply Forall_app in HZ. apply HZ. }
  pose proof (convert_run verbose d ds fr r sp w rest e s P HD HF H1 H2 HS HW) as R. cbv zeta in R.
  destruct (ending w) as [f [u|]] eqn:EE.
  - left. destruct (ending_form _ _ _ EE) as (l & ut & tail & -> & HL & HU).
    exists ds, fr, r, sp, l, f, ut, u, tail. split; [reflexivity|]. split.
    + split; [assumption|]. split; [assumption|]. destruct HS as [-> | (-> & _)]; [now right|now left].
    + split; [assumption|]. split; [assumption|exact R].
  - right. exact R.
Qed.

Lemma convert_arguments : forall verbose d str len size e s, str = None \/ size = false \/ d = None ->
  exists k, byte_size_string_convert verbose d str len size e s = Done ((-1)%Z, None) (add_err e k s).
Proof.
  intros verbose d str len size e s H. unfold byte_size_string_convert. destruct str as [str|]; [|eexists; reflexivity].
  destruct size; [|eexists; reflexivity]. destruct d as [d|]; [|eexists; reflexivity].
  destruct H as [H|[H|H]]; discriminate.
Qed.

(* -------------------------------------------------------------- there and back *)

Lemma numeral_digits : forall n l, numeral n l -> Forall numeric l /\ value_of l = n.
Proof. intros n l (H & V & _). now split. Qed.

Lemma prefix_letter_in : forall f, f <= 6 -> f <> 1 -> exists l, chars l = prefix_letter f /\ In (l, f) letters.
Proof.
  intros f H N. assert (exists k, (k <= 6)%nat /\ f = N.of_nat k) as (k & Hk & ->) by (exists (N.to_nat f); lia).
  destruct k; [exists EmptyString; split; [reflexivity|cbn; tauto]|]. destruct k; [exfalso; now apply N|].
  destruct k; [exists "M"%string; split; [reflexivity|cbn; tauto]|]. destruct k; [exists "G"%string; split; [reflexivity|cbn; tauto]|].
  destruct k; [exists "T"%string; split; [reflexivity|cbn; tauto]|]. destruct k; [exists "P"%string; split; [reflexivity|cbn; tauto]|].
  destruct k; [exists "E"%string; split; [reflexivity|cbn; tauto]|]. lia.
Qed.

(* the part before the letter of a created text *)
Lemma size_text_front : forall d units f q t number, point d -> numeral q number -> t < 10 ->
  exists fr r, text_ok d number fr r [32] /\ r = (if (f =? 0) || (10 <=? q) then 0 else 10 * t) /\
  size_text d units f q t number = number ++ fr ++ [32] ++ prefix_letter f ++ (if f =? 0 then chars "B" else unit_text units).
Proof.
  intros d units f q t number P NM Ht. unfold size_text. destruct (numeral_digits _ _ NM) as [HN _].
  exists (if (f =? 0) || (10 <=? q) then [] else [d; 48 + t]).
  destruct ((f =? 0) || (10 <=? q)).
  - exists 0. split; [|split; reflexivity]. split; [assumption|]. split; [left; now split|now right].
  - exists (10 * t). split; [|split; reflexivity]. split; [assumption|]. split; [|now right].
    right. exists [48 + t]. split; [reflexivity|]. split; [constructor; [unfold numeric; lia|constructor]|]. cbn [hundredths]. lia.
Qed.

Lemma unit_text_in : forall units, units = 1000 \/ units = 1024 -> exists ut, chars ut = unit_text units /\ In (ut, units) units_texts.
Proof. intros units [-> | ->]; [exists "B"%string|exists "iB"%string]; (split; [reflexivity|cbn; tauto]). Qed.

(* the units of a power that a size reaches *)
Lemma scaled_powers : forall units size f q, 1000 <= units -> scaled units size f q ->
  (f = 0 <-> size < units) /\ (f = 1 <-> units <= size < units * units).
Proof.
  intros units size f q Hu (-> & B & C).
  assert (D : forall k, units ^ k <> 0) by (intro; apply N.pow_nonzero; lia).
  assert (LO : f = 0 \/ units ^ f <= size).
  { destruct C as [C|C]; [now left|right]. pose proof (N.mul_div_le size (units ^ f) (D f)). nia. }
  assert (HI : size < units * units ^ f).
  { pose proof (N.mul_succ_div_gt size (units ^ f) (D f)). nia. }
  assert (E2 : units ^ 2 = units * units) by apply N.pow_2_r.
  split; split; intro H.
  - subst f. rewrite N.pow_0_r in HI. lia.
  - destruct LO as [LO|LO]; [assumption|]. destruct (N.eq_dec f 0); [assumption|].
    assert (units ^ 1 <= units ^ f) by (apply N.pow_le_mono_r; lia). rewrite N.pow_1_r in *. lia.
  - subst f. rewrite N.pow_1_r in *. lia.
  - destruct (N.lt_trichotomy f 1) as [F|[F|F]]; [|assumption|].
    + replace f with 0 in * by lia. rewrite N.pow_0_r in HI. lia.
    + assert (units ^ 2 <= units ^ f) by (apply N.pow_le_mono_r; lia). lia.
Qed.

Lemma round_trip_arith1 : forall p x y size units q rem, size = p * x + y -> y < p -> x = units * q + rem -> rem < units -> 10 <= q ->
  p * (q * units) <= size /\ 10 * (size - p * (q * units)) <= size.
Proof.
  intros p x y size units q rem -> Hy -> Hr Hq. replace (p * (units * q + rem) + y) with (p * (q * units) + (p * rem + y)) by ring.
  assert (p * rem + y <= p * units) by nia. assert (10 * (p * units) <= p * (q * units)) by nia. lia.
Qed.

Lemma round_trip_arith2 : forall p x y size units q rem t, size = p * x + y -> y < p -> x = units * q + rem -> 1 <= q -> 100 * t <= rem ->
  p * (units * q + 100 * t) <= size /\ size - p * (units * q + 100 * t) <= p * (rem - 100 * t + 1) - 1 /\ p * units <= size.
Proof.
  intros p x y size units q rem t -> Hy -> Hq Ht.
  assert (exists r, rem = 100 * t + r) as (r & ->) by (exists (rem - 100 * t); lia).
  replace (100 * t + r - 100 * t + 1) with (r + 1) by lia.
  replace (p * (units * q + (100 * t + r)) + y) with (p * (units * q + 100 * t) + (p * r + y)) by ring.
  replace (p * (r + 1)) with (p * r + p) by ring. assert (p * units <= p * (units * q + 100 * t)) by nia. lia.
Qed.

Lemma round_trip : forall verbose d target target' len size units e s, point d -> units = 1000 \/ units = 1024 -> size < 2 ^ 64 ->
  size < units \/ units * units <= size -> 9 <= len <= N.of_nat (length target) -> 
  byte_size_string_create (Some d) (Some target) len size units e s = Done (1%Z, Some target') s ->
  exists text rest v, target' = text ++ 0 :: rest /\ Forall (fun c => c <> 0) text /\
  byte_size_string_convert verbose (Some d) (Some target') (N.of_nat (length text)) true e s = Done (1%Z, Some v) s /\
  v <= size /\ 8 * (size - v) <= size /\ (units = 1000 -> 10 * (size - v) <= size) /\ (size < units -> v = size).
Proof.
  intros verbose d target target' len size units e s P Hu Hs Hk Hl Hc.
  destruct (create_ok d target len size units e s Hu Hs Hl) as (text & (f & q & number & SC & NM & ET) & LT & R).
  assert (R' : target' = text ++ 0 :: skipn (S (length text)) target) by (rewrite Hc in R;
    exact (f_equal (fun o => match o with Done (_, Some x) _ => x | _ => [] end) R)). clear R. rename R' into R. set (t := tenth units size f) in *.
  assert (T9 : t < 10) by (unfold t, tenth; lia).
  pose proof (scaled_powers units size f q ltac:(lia) SC) as [F0 F1].
  pose proof (scaled_bound units size f q ltac:(lia) Hs SC) as F6.
  assert (NF1 : f <> 1) by (rewrite F1; lia).
  destruct (size_text_front d units f q t number P NM T9) as (fr & r & TO & Er & Et).
  destruct (prefix_letter_in f F6 NF1) as (l & El & HL).
  destruct (unit_text_in units Hu) as (ut0 & Eut0 & HU0).
  destruct (numeral_digits _ _ NM) as [HN HV].
  assert (exists ut u, chars ut = (if f =? 0 then chars "B" else unit_text units) /\ In (ut, u) units_texts /\ (f <> 0 -> u = units)) as (ut & u & Eut & HU & Hu').
  { destruct (N.eqb_spec f 0).
    - exists "B"%string, 1000. split; [reflexivity|]. split; [cbn; tauto|]. intro. contradiction.
    - exists ut0, units. split; [assumption|]. split; [assumption|]. reflexivity. }
  exists text, (skipn (S (length text)) target), (parsed_value q r f u).
  split; [exact R|].
  assert (ET2 : text = number ++ fr ++ [32] ++ chars l ++ chars ut ++ []).
  { rewrite ET, Et, El, Eut, app_nil_r. reflexivity. }
  split.
  { rewrite ET2. destruct TO as (_ & TF & _). destruct (ending_ok l f u ut [] HL (or_introl HU)) as (_ & _ & _ & _ & Z).
    apply Forall_app. split; [eapply Forall_impl; [|exact HN]; unfold numeric; intros; lia|]. apply Forall_app. split.
    - destruct TF as [(-> & _)|(fs & -> & Hfs & _)]; [constructor|]. constructor; [apply P|].
      eapply Forall_impl; [|exact Hfs]; unfold numeric; intros; lia.
    - constructor; [discriminate|]. rewrite app_nil_r. exact Z. }
  split.
  { rewrite R. cbn [app]. generalize (skipn (S (length text)) target). intro rest. rewrite ET2.
    replace (parsed_value q r f u) with (parsed_value (value_of number) r f u) by now rewrite HV.
    apply (convert_accepts verbose d number fr r [32] l f ut u [] rest e s P TO HL (or_introl HU) (Forall_nil _)). }
  unfold parsed_value. destruct SC as (Eq & B & C). destruct (N.eqb_spec f 0) as [Ef|Ef].
  - rewrite Ef, N.pow_0_r, N.div_1_r in Eq. subst q. rewrite N.mod_small by assumption. repeat split; lia.
  - specialize (Hu' Ef). subst u.
    assert (Z : units ^ (f - 1) <> 0) by (apply N.pow_nonzero; lia).
    assert (PW : units ^ f = units ^ (f - 1) * units).
    { replace f with (N.succ (f - 1)) at 1 by lia. rewrite N.pow_succ_r'. apply N.mul_comm. }
    assert (Q1 : 1 <= q) by (destruct C; [contradiction|lia]).
    assert (Sz : ~ size < units) by (rewrite <- F0; assumption).
    set (p := units ^ (f - 1)) in *.
    pose proof (N.div_mod size p Z) as D1. pose proof (N.mod_lt size p Z) as M1.
    set (x := size / p) in *. set (y := size mod p) in *.
    assert (Eq2 : q = x / units) by (unfold x; rewrite N.div_div, <- PW by lia; assumption).
    pose proof (N.div_mod x units ltac:(lia)) as D2. pose proof (N.mod_lt x units ltac:(lia)) as M2. rewrite <- Eq2 in D2.
    set (rem := x mod units) in *.
    assert (Et9 : t = N.min 9 (rem / 100)) by reflexivity.
    pose proof (N.div_mod rem 100 ltac:(discriminate)) as D3. pose proof (N.mod_lt rem 100 ltac:(discriminate)) as M3.
    set (h := rem / 100) in *. set (lo := rem mod 100) in *.
    assert (V : q * units ^ f + r * 10 * p = p * (q * units + 10 * r)) by (rewrite PW; lia). rewrite V.
    cbn [orb] in Er. revert Er. destruct (N.leb_spec 10 q) as [Q10|Q10]; intro Er.
    + subst r. replace (q * units + 10 * 0) with (q * units) by lia.
      destruct (round_trip_arith1 p x y size units q rem D1 M1 D2 M2 Q10) as [BD BD2].
      rewrite N.mod_small by lia.
      repeat split; lia.
    + subst r.
      replace (q * units + 10 * (10 * t)) with (units * q + 100 * t) by lia.
      assert (100 * t <= rem) by lia.
      destruct (round_trip_arith2 p x y size units q rem t D1 M1 D2 Q1 ltac:(assumption)) as (BD & G & SZ).
      rewrite N.mod_small by lia.
      repeat split; try lia; try (intro; lia).
      * assert (rem - 100 * t + 1 <= 124) by lia.
        assert (p * (rem - 100 * t + 1) <= p * 124) by (apply N.mul_le_mono_l; assumption).
        assert (8 * (p * 124) <= p * units) by (destruct Hu as [-> | ->]; lia). lia.
      * intro U. assert (rem - 100 * t + 1 <= 100) by lia.
        assert (p * (rem - 100 * t + 1) <= p * 100) by (apply N.mul_le_mono_l; assumption).
        rewrite U in *. lia.
Qed.

Lemma round_trip_kilo : forall verbose d target target' len size units e s, point d -> units = 1000 \/ units = 1024 -> 
  units <= size < units * units -> 9 <= len <= N.of_nat (length target) -> 
  byte_size_string_create (Some d) (Some target) len size units e s = Done (1%Z, Some target') s ->
  exists text rest, target' = text ++ 0 :: rest /\ Forall (fun c => c <> 0) text /\
  byte_size_string_convert verbose (Some d) (Some target') (N.of_nat (length text)) true e s =
  Done ((-1)%Z, None) (add_err e E_RUNTIME_VALUE_OUT_OF_BOUNDS s).
Proof.
  intros verbose d target target' len size units e s P Hu Hk Hl Hc.
  assert (Hs : size < 2 ^ 64). { assert (1024 * 1024 < 2 ^ 64) by reflexivity. destruct Hu as [-> | ->]; lia. }
  destruct (create_ok d target len size units e s Hu Hs Hl) as (text & (f & q & number & SC & NM & ET) & LT & R).
  assert (R' : target' = text ++ 0 :: skipn (S (length text)) target) by (rewrite Hc in R;
    exact (f_equal (fun o => match o with Done (_, Some x) _ => x | _ => [] end) R)). clear R. rename R' into R. set (t := tenth units size f) in *.
  assert (T9 : t < 10) by (unfold t, tenth; lia).
  pose proof (scaled_powers units size f q ltac:(lia) SC) as [F0 F1].
  assert (f = 1) by (apply F1; assumption). subst f.
  destruct (size_text_front d units 1 q t number P NM T9) as (fr & r & TO & Er & Et).
  destruct (numeral_digits _ _ NM) as [HN HV].
  assert (UZ : Forall (fun c => c <> 0) (unit_text units)).
  { unfold unit_text. destruct (units =? 1000); repeat constructor; discriminate. }
  exists text, (skipn (S (length text)) target). split; [exact R|].
  assert (ET2 : text = number ++ fr ++ [32] ++ 75 :: unit_text units) by (rewrite ET, Et; reflexivity).
  split.
  { rewrite ET2. destruct TO as (_ & TF & _).
    apply Forall_app. split; [eapply Forall_impl; [|exact HN]; unfold numeric; intros; lia|]. apply Forall_app. split.
    - destruct TF as [(-> & _)|(fs & -> & Hfs & _)]; [constructor|]. constructor; [apply P|].
      eapply Forall_impl; [|exact Hfs]; unfold numeric; intros; lia.
    - constructor; [discriminate|]. constructor; [discriminate|assumption]. }
  rewrite R. cbn [app]. generalize (skipn (S (length text)) target). intro rest. rewrite ET2.
  apply (convert_rejects_kilo verbose d number fr r [32] 75 (unit_text units) _ e s P TO); [now left|assumption].
Qed.

(* ------------------------------------------------------------ final forms *)

Lemma only_error_add : forall e k s, only_error e s (add_err e k s).
Proof. intros e k s. repeat split. exists k. destruct e; reflexivity. Qed.

Lemma copy_rejects : forall E dp n sp size e s, dp = None \/ sp = None \/ ssize_max E < n \/ ssize_max E < size \/ size < 2 * n + 1 ->
  exists s', digest_hash_copy_to_string E dp n sp size e s = Done (-1)%Z s' /\ only_error e s s'.
Proof. intros. destruct (copy_fails E dp n sp size e s H) as (k & ->). eexists. split; [reflexivity|]. apply only_error_add. Qed.

Lemma create_rejects : forall d target len size units e s, target = None \/ len < 9 ->
  exists s', byte_size_string_create d target len size units e s = Done ((-1)%Z, target) s' /\ only_error e s s'.
Proof. intros. destruct (create_fails d target len size units e s H) as (k & ->). eexists. split; [reflexivity|]. apply only_error_add. Qed.

Lemma convert_rejects : forall verbose d str len size e s, str = None \/ size = false \/ d = None ->
  exists s', byte_size_string_convert verbose d str len size e s = Done ((-1)%Z, None) s' /\ only_error e s s'.
Proof. intros. destruct (convert_arguments verbose d str len size e s H) as (k & ->). eexists. split; [reflexivity|]. apply only_error_add. Qed.

Lemma convert_exact : forall verbose d ds sp l f ut u tail rest e s, point d -> Forall numeric ds -> sp = [] \/ sp = [32] ->
  In (l, f) letters -> In (ut, u) units_texts \/ (ut = EmptyString /\ tail = [] /\ u = 1024) -> Forall (fun c => c <> 0) tail ->
  value_of ds * u ^ f < 2 ^ 64 ->
  let t := ds ++ sp ++ chars l ++ chars ut ++ tail in
  byte_size_string_convert verbose (Some d) (Some (t ++ 0 :: rest)) (N.of_nat (length t)) true e s =
  Done (1%Z, Some (value_of ds * u ^ f)) s.
Proof.
  intros verbose d ds sp l f ut u tail rest e s P HD HS HL HU HT HV t.
  replace (value_of ds * u ^ f) with (parsed_value (value_of ds) 0 f u).
  - apply (convert_accepts verbose d ds [] 0 sp l f ut u tail rest e s P); try assumption.
    split; [assumption|]. split; [left; now split|assumption].
  - unfold parsed_value. destruct (N.eqb_spec f 0) as [->|].
    + rewrite N.pow_0_r, N.mul_1_r in *. apply N.mod_small. assumption.
    + rewrite !N.mul_0_l, N.add_0_r. apply N.mod_small. assumption.
Qed.

Lemma convert_wraps : forall verbose d ds sp l f ut u tail rest e s, point d -> Forall numeric ds -> sp = [] \/ sp = [32] ->
  In (l, f) letters -> In (ut, u) units_texts \/ (ut = EmptyString /\ tail = [] /\ u = 1024) -> Forall (fun c => c <> 0) tail ->
  let t := ds ++ sp ++ chars l ++ chars ut ++ tail in
  byte_size_string_convert verbose (Some d) (Some (t ++ 0 :: rest)) (N.of_nat (length t)) true e s =
  Done (1%Z, Some ((value_of ds * u ^ f) mod 2 ^ 64)) s.
Proof.
  intros verbose d ds sp l f ut u tail rest e s P HD HS HL HU HT t.
  replace ((value_of ds * u ^ f) mod 2 ^ 64) with (parsed_value (value_of ds) 0 f u).
  - apply (convert_accepts verbose d ds [] 0 sp l f ut u tail rest e s P); try assumption.
    split; [assumption|]. split; [left; now split|assumption].
  - unfold parsed_value. destruct (N.eqb_spec f 0) as [->|].
    + rewrite N.pow_0_r, N.mul_1_r in *. reflexivity.
    + rewrite !N.mul_0_l, N.add_0_r. reflexivity.
Qed.

Lemma convert_kilo : forall verbose d ds fr r sp k tail rest e s, point d -> text_ok d ds fr r sp ->
  k = 75 \/ k = 107 -> Forall (fun c => c <> 0) tail ->
  let t := ds ++ fr ++ sp ++ k :: tail in
  exists s', byte_size_string_convert verbose (Some d) (Some (t ++ 0 :: rest)) (N.of_nat (length t)) true e s =
  Done ((-1)%Z, None) s' /\ only_error e s s'.
Proof.
  intros. eexists. split; [apply (convert_rejects_kilo verbose d ds fr r sp k tail rest e s); assumption|]. apply only_error_add.
Qed.

Lemma convert_any : forall verbose d t rest e s, point d -> Forall (fun c => c <> 0) t ->
  (exists ds fr r sp l f ut u tail, t = ds ++ fr ++ sp ++ chars l ++ chars ut ++ tail /\ text_ok d ds fr r sp /\
     In (l, f) letters /\ (In (ut, u) units_texts \/ (ut = EmptyString /\ tail = [] /\ u = 1024)) /\
     byte_size_string_convert verbose (Some d) (Some (t ++ 0 :: rest)) (N.of_nat (length t)) true e s =
     Done (1%Z, Some (parsed_value (value_of ds) r f u)) s) \/
  (exists s', byte_size_string_convert verbose (Some d) (Some (t ++ 0 :: rest)) (N.of_nat (length t)) true e s =
     Done ((-1)%Z, None) s' /\ only_error e s s').
Proof.
  intros. destruct (convert_total verbose d t rest e s H H0) as [C|C]; [left; exact C|right].
  eexists. split; [exact C|]. apply only_error_add.
Qed.

Lemma round_trip_refused : forall verbose d target target' len size units e s, point d -> units = 1000 \/ units = 1024 ->
  units <= size < units * units -> 9 <= len <= N.of_nat (length target) ->
  byte_size_string_create (Some d) (Some target) len size units e s = Done (1%Z, Some target') s ->
  exists text rest s', target' = text ++ 0 :: rest /\ Forall (fun c => c <> 0) text /\
  byte_size_string_convert verbose (Some d) (Some target') (N.of_nat (length text)) true e s = Done ((-1)%Z, None) s' /\ only_error e s s'.
Proof.
  intros. destruct (round_trip_kilo verbose d target target' len size units e s) as (text & rest & A & B & C); try assumption.
  exists text, rest. eexists. split; [exact A|]. split; [exact B|]. split; [exact C|]. apply only_error_add.
Qed.

Lemma create_1124 : forall e s, exists size, 10 * size / 1024 = 10 /\
  byte_size_string_create (Some 46) (Some (repeat 255 9)) 9 size 1024 e s = Done (1%Z, Some (chars "1.1 KiB" ++ [0; 255])) s.
Proof. intros e s. exists 1124. split; reflexivity. Qed.

(* without a decimal point *)
Lemma create_no_point_code : forall target len size units e s, units = 1000 \/ units = 1024 -> size < 2 ^ 64 ->
  9 <= len <= N.of_nat (length target) ->
  exists f q, scaled units size f q /\
  (((f = 0 \/ 10 <= q) /\ forall d, byte_size_string_create None (Some target) len size units e s = byte_size_string_create (Some d) (Some target) len size units e s) \/
   (f <> 0 /\ q < 10 /\ byte_size_string_create None (Some target) len size units e s = Done ((-1)%Z, Some target) (add_err e E_RUNTIME_GET_FAILED s))).
Proof.
  intros target len size units e s Hu Hs Hl. unfold byte_size_string_create.
  destruct (N.ltb_spec len 9); [lia|].
  destruct (factor_loop_ok 65 units size 0 0) as (f & EF & B & C); [lia| |].
  { assert (2 ^ 66 <= units ^ (N.of_nat 65 + 1)) by (apply N.pow_le_mono_l; lia). change (2 ^ 66) with (4 * 2 ^ 64) in *. lia. }
  rewrite EF, N.add_0_l.
  set (q := size / units ^ f) in *.
  assert (SC : scaled units size f q) by (split; [reflexivity|split; assumption]).
  assert (F6 : f <= 6) by (eapply scaled_bound; try eassumption; lia).
  assert (UF : (units <=? size) = negb (f =? 0)).
  { destruct C as [->|C].
    - unfold q in B. rewrite N.pow_0_r, N.div_1_r in B. destruct (N.leb_spec units size); [lia|reflexivity].
    - destruct (N.eqb_spec f 0) as [->|NF].
      + unfold q in B. rewrite N.pow_0_r, N.div_1_r in B. destruct (N.leb_spec units size); [lia|reflexivity].
      + destruct (N.leb_spec units size); [reflexivity|exfalso].
        unfold q in C. assert (units ^ 1 <= units ^ f) by (apply N.pow_le_mono_r; lia). rewrite N.pow_1_r in *.
        rewrite N.div_small in C by lia. lia. }
  rewrite UF. exists f, q. split; [exact SC|].
  rewrite (bind_done _ _ _ _ _ _ _ (lift_some _ _ _)). cbv beta iota.
  destruct (N.ltb_spec 8 f); [lia|].
  destruct (N.eqb_spec f 0) as [F0|F0]; cbn [negb andb].
  - left. split; [now left|]. intros d. rewrite (bind_done _ _ _ _ _ _ _ (lift_some _ _ _)). cbv beta iota zeta.
    destruct (N.ltb_spec 8 f); [lia|]. reflexivity.
  - destruct (N.ltb_spec q 10) as [Q|Q].
    + right. split; [exact F0|]. split; [exact Q|].
      replace (if f =? 0 then 0 else size / units ^ (f - 1)) with (size / units ^ (f - 1)) by (destruct (N.eqb_spec f 0); [contradiction|reflexivity]).
      set (rem := size / units ^ (f - 1) mod units).
      assert (rem < units) by (apply N.mod_lt; lia).
      assert (rem / 100 < 11) by (apply N.div_lt_upper_bound; lia).
      rewrite to_int8_small by lia. cbv zeta.
      assert (T : (0 <=? (if (9 <? Z.of_N (rem / 100))%Z then 9 else Z.of_N (rem / 100)))%Z = true) by (destruct (9 <? Z.of_N (rem / 100))%Z; [reflexivity|apply Z.leb_le, N2Z.is_nonneg]).
      rewrite T. reflexivity.
    + left. split; [now right|]. intros d. rewrite (bind_done _ _ _ _ _ _ _ (lift_some _ _ _)). cbv beta iota zeta.
      destruct (N.ltb_spec 8 f); [lia|]. destruct (N.ltb_spec q 10); [lia|]. reflexivity.
Qed.

Lemma create_no_point : forall target len size units e s, units = 1000 \/ units = 1024 -> size < 2 ^ 64 ->
  9 <= len <= N.of_nat (length target) ->
  exists f q, scaled units size f q /\
  (((f = 0 \/ 10 <= q) /\ forall d, byte_size_string_create None (Some target) len size units e s = byte_size_string_create (Some d) (Some target) len size units e s) \/
   (f <> 0 /\ q < 10 /\ exists s', byte_size_string_create None (Some target) len size units e s = Done ((-1)%Z, Some target) s' /\ only_error e s s')).
Proof.
  intros. destruct (create_no_point_code target len size units e s) as (f & q & S & [C|(C & D & F)]); try assumption.
  - exists f, q. split; [exact S|]. left. exact C.
  - exists f, q. split; [exact S|]. right. split; [exact C|]. split; [exact D|]. eexists. split; [exact F|]. apply only_error_add.
Qed.

Lemma create_other_units : forall d target len e s, 9 <= len -> (forall units, 3 <= units < 1000 ->
  byte_size_string_create (Some d) (Some target) len 1024 units e s = Undef) /\
  byte_size_string_create (Some d) (Some target) len 1024 1 e s = Undef.
Proof.
  intros d target len e s Hl. split.
  2: { unfold byte_size_string_create. destruct (N.ltb_spec len 9); [lia|]. reflexivity. }
  intros units Hu. unfold byte_size_string_create. destruct (N.ltb_spec len 9); [lia|].
  destruct (factor_loop_ok 65 units 1024 0 0) as (f & EF & B & C); [lia| |].
  { assert (2 ^ 66 <= units ^ (N.of_nat 65 + 1)) by (apply N.pow_le_mono_l; lia). change (2 ^ 66) with (4 * 2 ^ 64) in *. lia. }
  rewrite EF. rewrite (bind_done _ _ _ _ _ _ _ (lift_some _ _ _)). cbv beta iota. cbn [N.add].
  assert (U1 : (units =? 1000) = false) by (apply N.eqb_neq; lia). assert (U2 : (units =? 1024) = false) by (apply N.eqb_neq; lia).
  rewrite U1, U2. change (1024 <? 1024) with false. cbn [orb].
  destruct (N.ltb_spec 8 f) as [F|F].
  { exfalso. destruct C as [->|C]; [lia|]. assert (3 ^ 9 <= units ^ f) by (transitivity (3 ^ f); [apply N.pow_le_mono_r; lia|apply N.pow_le_mono_l; lia]).
    rewrite N.div_small in C; [lia|]. change (3 ^ 9) with 19683 in *. lia. }
  match goal with |- context [if (0 <=? ?x)%Z then _ else _] => destruct (0 <=? x)%Z end; reflexivity.
Qed.
