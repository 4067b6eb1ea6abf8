(* Lemmas about pyhmac_error.c *)
From Coq Require Import Arith NArith ZArith List Bool Lia String.
From Verif Require Import Words Machine Context SumHandle Py PyError ToolVocab PyErrorVocab.
Import ListNotations.
Open Scope N_scope.

Lemma until_zero_app : forall t r, ~ In 0 t -> until_zero (t ++ 0 :: r) = Some t.
Proof.
  induction t as [|c t IH]; intros r H; [reflexivity|].
  cbn [app until_zero]. destruct (c =? 0) eqn:E; [apply N.eqb_eq in E; subst; exfalso; apply H; now left|].
  rewrite IH; [reflexivity|]. intros I. apply H. now right.
Qed.

Lemma first_zero : forall l, ~ In 0 l \/ exists t r, l = t ++ 0 :: r /\ ~ In 0 t.
Proof.
  induction l as [|c l IH]; [left; intros []|].
  destruct (N.eq_dec c 0) as [->|D]; [right; now exists [], l; split; [|intros []]|].
  destruct IH as [I|(t & r & -> & I)].
  - left. intros [J|J]; [now apply D|now apply I].
  - right. exists (c :: t), r. split; [reflexivity|]. intros [J|J]; [now apply D|now apply I].
Qed.

(* the string in the first n characters *)
Lemma begins_exists : forall n l, exists t, begins n l t /\ until_zero (firstn (N.to_nat n) l ++ [0]) = Some t.
Proof.
  intros n l. destruct (first_zero (firstn (N.to_nat n) l)) as [I|(t & r & E & I)].
  - exists (firstn (N.to_nat n) l). split; [|now apply until_zero_app].
    split; [|split; [exact I|]].
    + exists (skipn (N.to_nat n) l). split; [now rewrite firstn_skipn|].
      destruct (le_lt_dec (List.length l) (N.to_nat n)) as [L|L].
      * left. now apply skipn_all2.
      * right. right. rewrite firstn_length_le; lia.
    + rewrite firstn_length. lia.
  - exists t. split; [split; [|split; [exact I|]]|].
    + exists (0 :: r ++ skipn (N.to_nat n) l). split.
      * rewrite <- (firstn_skipn (N.to_nat n) l) at 1. rewrite E, <- app_assoc. reflexivity.
      * right. left. now eexists.
    + pose proof (f_equal (@List.length N) E) as L. rewrite firstn_length, app_length in L. cbn in L. lia.
    + rewrite E, <- app_assoc. now apply until_zero_app.
Qed.

Lemma until_zero_more : forall l t r, until_zero l = Some t -> until_zero (l ++ r) = Some t.
Proof.
  induction l as [|c l IH]; intros t r H; [discriminate|].
  cbn [app until_zero] in *. destruct (c =? 0); [exact H|].
  destruct (until_zero l) as [u|] eqn:E; [|discriminate]. cbn in H. injection H as <-. now rewrite (IH u r eq_refl).
Qed.

Lemma vsnprintf_begins : forall junk t, exists m, begins (error_string_size - 1) t m /\
  until_zero (fst (vsnprintf junk error_string_size (Some t))) = Some m.
Proof.
  intros junk t. destruct (begins_exists (error_string_size - 1) t) as (m & B & U). exists m. split; [exact B|].
  cbn [vsnprintf fst]. now apply until_zero_more.
Qed.

Lemma vsnprintf_ok : forall junk t, (snd (vsnprintf junk error_string_size (Some t)) <? 0)%Z = false.
Proof. intros. cbn [vsnprintf snd]. apply Z.ltb_ge. lia. Qed.

(* ------------------------------------------------------- the loop *)

Definition line_char (c : N) : N := if (c =? 10) || (c =? 13) then 32 else c.

Lemma aset_app {A} : forall (p : list A) c q v, aset (p ++ c :: q) (List.length p) v = Some (p ++ v :: q).
Proof. induction p as [|x p IH]; intros; [reflexivity|]. cbn [app List.length aset]. now rewrite IH. Qed.

Lemma aget_app {A} : forall (p : list A) c q, aget (p ++ c :: q) (List.length p) = Some c.
Proof. induction p as [|x p IH]; intros; [reflexivity|]. cbn [app List.length aget]. apply IH. Qed.

Lemma line_char_nonzero : forall c, c <> 0 -> line_char c <> 0.
Proof. intros c H. unfold line_char. now destruct ((c =? 10) || (c =? 13)). Qed.

Lemma ess : error_string_size = 2048. Proof. reflexivity. Qed.
Local Opaque error_string_size.

Lemma replace_newlines_run : forall t fuel p r, ~ In 0 t -> (List.length t < fuel)%nat ->
  N.of_nat (List.length p + List.length t) <= error_string_size ->
  (N.of_nat (List.length p + List.length t) = error_string_size \/ exists r', r = 0 :: r') ->
  replace_newlines fuel (p ++ t ++ r) (List.length p) = Some (p ++ map line_char t ++ r, (List.length p + List.length t)%nat).
Proof.
  induction t as [|c t IH]; intros fuel p r Z F L H.
  - destruct fuel as [|fuel]; [cbn in F; lia|]. cbn [replace_newlines app map List.length]. rewrite Nat.add_0_r.
    cbn [List.length] in L, H. rewrite Nat.add_0_r in L, H.
    destruct (N.ltb_spec (N.of_nat (List.length p)) error_string_size) as [Q|Q]; [|reflexivity].
    destruct H as [H|(r' & ->)]; [lia|]. now rewrite aget_app.
  - destruct fuel as [|fuel]; [cbn in F; lia|]. cbn [List.length] in *.
    assert (C : c <> 0) by (intros ->; apply Z; now left).
    assert (Z' : ~ In 0 t) by (intros I; apply Z; now right).
    cbn [replace_newlines app map].
    destruct (N.ltb_spec (N.of_nat (List.length p)) error_string_size) as [Q|Q]; [|lia].
    rewrite aget_app. cbn [obind]. apply N.eqb_neq in C as C'. rewrite C'.
    assert (G : forall d, replace_newlines fuel (p ++ d :: t ++ r) (S (List.length p)) =
                          Some (p ++ d :: map line_char t ++ r, (List.length p + S (List.length t))%nat)).
    { intros d. specialize (IH fuel (p ++ [d]) r Z'). rewrite app_length in IH. cbn [List.length] in IH.
      rewrite <- !app_assoc in IH. cbn [app] in IH.
      replace (List.length p + 1)%nat with (S (List.length p)) in IH by lia.
      rewrite IH; [|lia|lia|].
      - f_equal. f_equal. lia.
      - destruct H as [H|H]; [left; lia|now right]. }
    unfold line_char at 1. destruct ((c =? 10) || (c =? 13)).
    + rewrite aset_app. cbn [obind]. apply G.
    + apply G.
Qed.

Lemma on_one_line_map : forall u, on_one_line u (map line_char u).
Proof. induction u; cbn; constructor; [reflexivity|assumption]. Qed.

Lemma map_line_nonzero : forall u, ~ In 0 u -> ~ In 0 (map line_char u).
Proof.
  intros u H I. apply in_map_iff in I. destruct I as (c & E & I). apply (line_char_nonzero c); [|exact E].
  intros ->. now apply H.
Qed.

Lemma aset_last {A} : forall (l : list A) k v, List.length l = S k -> aset l k v = Some (firstn k l ++ [v]).
Proof.
  induction l as [|x l IH]; intros k v H; [discriminate|]. destruct k as [|k].
  - destruct l; [reflexivity|discriminate].
  - cbn [List.length] in H. cbn [aset firstn app]. rewrite IH; [reflexivity|lia].
Qed.

(* the text of the error after the loop *)
Lemma trace_text : forall size b fuel, error_string_size = size -> (0 < size) -> N.of_nat (List.length b) = size -> (List.length b < fuel)%nat ->
  exists u t, begins (size - 1) b u /\ on_one_line u t /\
  exists b' i b'',
  replace_newlines fuel b 0 = Some (b', i) /\
  (if size <=? N.of_nat i then aset b' (N.to_nat (size - 1)) 0 else Some b') = Some b'' /\
  until_zero b'' = Some t.
Proof.
  intros size b fuel ES P A F. destruct (first_zero b) as [I|(u & r & E & I)].
  - remember (N.to_nat (size - 1)) as k eqn:Ek.
    exists (firstn k b), (firstn k (map line_char b)).
    assert (LN : List.length b = S k) by lia.
    assert (J : ~ In 0 (firstn k b)) by (intros J; apply I; rewrite <- (firstn_skipn k b); apply in_or_app; now left).
    split; [|split].
    + split; [|split; [exact J|rewrite firstn_length; lia]].
      exists (skipn k b). split; [now rewrite firstn_skipn|]. right. right. rewrite firstn_length. lia.
    + rewrite firstn_map. apply on_one_line_map.
    + pose proof (replace_newlines_run b fuel [] [] I F) as R. rewrite ES in R.
      cbn [app List.length Nat.add] in R. rewrite !app_nil_r in R.
      rewrite R; [|lia|left; exact A].
      do 3 eexists. split; [reflexivity|]. rewrite A, N.leb_refl.
      rewrite aset_last; [|now rewrite map_length]. split; [reflexivity|]. apply until_zero_app.
      intros K. apply (map_line_nonzero b I). rewrite <- (firstn_skipn k (map line_char b)).
      apply in_or_app. now left.
  - exists u, (map line_char u).
    assert (LN : N.of_nat (List.length u) < size).
    { rewrite E, app_length in A. cbn [List.length] in A. lia. }
    split; [|split; [apply on_one_line_map|]].
    + split; [exists (0 :: r); split; [exact E|right; left; now eexists]|split; [exact I|lia]].
    + pose proof (replace_newlines_run u fuel [] (0 :: r) I) as R. rewrite ES in R.
      cbn [app List.length Nat.add] in R. rewrite E in *. rewrite app_length in F.
      rewrite R; [|lia|lia|right; now eexists].
      do 3 eexists. split; [reflexivity|].
      destruct (N.leb_spec size (N.of_nat (List.length u))); [lia|]. split; [reflexivity|].
      now apply until_zero_app, map_line_nonzero.
Qed.

Lemma raise_text : forall error x t junk s, error_array junk ->
  (forall b, error = Some (Some b) -> error_array b) ->
  exists text m, error_raise_text error x (Some (Some t)) junk s =
    Some (tt, mk_interp (Some (Formatted x text)) (held s) (objects s) (error_texts s)) /\
  begins 2047 t m /\
  match error with
  | Some (Some b) => exists u v, begins 2047 b u /\ on_one_line u v /\ text = m ++ [32] ++ v
  | _ => text = m
  end.
Proof.
  intros error x t junk s J B. unfold error_raise_text.
  destruct (vsnprintf_begins junk t) as (m & Bm & U). pose proof (vsnprintf_ok junk t) as K.
  destruct (vsnprintf junk error_string_size (Some t)) as [buf n]. cbn [fst snd] in U, K. rewrite K.
  destruct error as [[b|]|].
  - destruct (trace_text error_string_size b (S (N.to_nat error_string_size)) eq_refl eq_refl (B b eq_refl)) as (u & v & Bu & O & b' & i & b'' & R & A & V).
    { pose proof (B b eq_refl) as Q. unfold error_array in Q. rewrite ess. lia. }
    exists (m ++ [32] ++ v), m. unfold xbind, xlift at 1. rewrite R. unfold xlift at 1. rewrite A. unfold xlift. rewrite U, V.
    split; [reflexivity|]. split; [exact Bm|]. now exists u, v.
  - exists m, m. unfold xbind, xlift. rewrite U. split; [reflexivity|]. now split.
  - exists m, m. unfold xbind, xlift. rewrite U. split; [reflexivity|]. now split.
Qed.

(* ------------------------------------------------------- pyhmac_error_fetch and pyhmac_error_fetch_and_raise *)

Lemma until_zero_inv : forall l t, until_zero l = Some t -> (exists r, l = t ++ 0 :: r) /\ ~ In 0 t.
Proof.
  induction l as [|c l IH]; intros t H; [discriminate|].
  cbn [until_zero] in H. destruct (N.eqb_spec c 0) as [->|D].
  - injection H as <-. split; [now exists l|intros []].
  - destruct (until_zero l) as [u|]; [|discriminate]. cbn in H. injection H as <-.
    destruct (IH u eq_refl) as [(r & ->) I]. split; [now exists r|]. intros [J|J]; [now apply D|now apply I].
Qed.

Lemma remove_stop_text : forall buf m, until_zero buf = Some m ->
  exists buf' m', remove_stop buf = Some buf' /\ until_zero buf' = Some m' /\ without_stop m m'.
Proof.
  intros buf m U. unfold remove_stop, string_length. rewrite U. cbn [option_map obind].
  destruct (until_zero_inv _ _ U) as [(r & ->) I].
  destruct m as [|c m] using rev_ind.
  - cbn [List.length Nat.leb]. eexists _, _. split; [reflexivity|]. split; [exact U|]. right. split; [reflexivity|].
    intros v Q. now destruct v.
  - clear IHm. rewrite app_length. cbn [List.length]. replace (List.length m + 1)%nat with (S (List.length m)) by lia. cbn [Nat.leb last_index obind].
    rewrite <- app_assoc. cbn [app]. rewrite aget_app. cbn [obind].
    destruct (N.eqb_spec c 46) as [->|D].
    + rewrite aset_app. eexists _, m. split; [reflexivity|]. split; [|now left].
      apply until_zero_app. intros J. apply I. apply in_or_app. now left.
    + eexists _, _. split; [reflexivity|]. rewrite <- app_assoc in U. cbn [app] in U. split; [exact U|]. right. split; [reflexivity|].
      intros v Q. apply app_inj_tail in Q. now destruct Q as [_ ->].
Qed.

Lemma bytes_begin : forall b, exists v, until_zero (b ++ [0]) = Some v /\ begins (N.of_nat (List.length b)) b v.
Proof.
  intros b. destruct (begins_exists (N.of_nat (List.length b)) b) as (v & B & U).
  rewrite Nnat.Nat2N.id, firstn_all in U. now exists v.
Qed.

(* PyErr_Fetch *)
Lemma fetch_run : forall s, exists x n, py_fetch s =
  Some (x, mk_interp None (references (indicator s) (objects s) ++ held s) n (error_texts s)) /\
  snd (fst x) = value_of (indicator s) (objects s).
Proof.
  intros [i h o e]. unfold py_fetch. cbn [indicator held objects error_texts].
  destruct i as [[t v b|x t]|]; cbn [references value_of].
  - do 2 eexists. split; [cbn [app]; rewrite <- app_assoc; reflexivity|reflexivity].
  - do 2 eexists. split; reflexivity.
  - do 2 eexists. split; reflexivity.
Qed.

Lemma drop_head : forall o l, drop_one o (o :: l) = Some l.
Proof. intros. cbn [drop_one]. now rewrite Nat.eqb_refl. Qed.
Lemma drop_second : forall o l, drop_one o (S o :: o :: l) = Some (S o :: l).
Proof.
  intros. cbn [drop_one]. destruct (Nat.eqb_spec o (S o)) as [Q|_]; [lia|]. now rewrite Nat.eqb_refl.
Qed.

Lemma fetch_and_raise_text : forall repr utf8 x t junk s rt, error_array junk ->
  repr (value_of (indicator s) (objects s)) = Some rt ->
  exists u m text n, error_fetch_and_raise repr utf8 x (Some (Some t)) junk s =
    Some (tt, mk_interp (Some (Formatted x text))
                ((match utf8 rt with Some _ => [n] | None => [] end) ++ references (indicator s) (objects s) ++ held s)
                (S n) (error_texts s)) /\
  begins 2047 t u /\ without_stop u m /\
  match utf8 rt with
  | Some b => exists v, begins (N.of_nat (List.length b)) b v /\ text = m ++ literal " with error: " ++ v ++ literal "."
  | None => text = m ++ literal "."
  end.
Proof.
  intros repr utf8 x t junk s rt J R. unfold error_fetch_and_raise.
  destruct (vsnprintf_begins junk t) as (u & B & U). pose proof (vsnprintf_ok junk t) as K.
  destruct (vsnprintf junk error_string_size (Some t)) as [buf k]. cbn [fst snd] in U, K. rewrite K.
  destruct (remove_stop_text buf u U) as (buf' & m & RS & U' & W).
  unfold xbind at 1, xlift at 1. rewrite RS.
  destruct (fetch_run s) as (f & n & F & V). unfold xbind at 1. rewrite F. rewrite V.
  unfold exception_text. unfold xbind at 1 2 3, xlift at 1. rewrite R. unfold xbind at 1, new_object at 1.
  cbn [indicator held objects error_texts].
  destruct (utf8 rt) as [b|].
  - destruct (bytes_begin b) as (v & Ub & Bv).
    exists u, m, (m ++ literal " with error: " ++ v ++ literal "."), (S n).
    unfold xbind, xlift, new_object, py_format, xret, decref. cbn [indicator held objects error_texts]. rewrite U', Ub.
    cbn [indicator held objects error_texts]. rewrite drop_second. split; [reflexivity|]. split; [exact B|]. split; [exact W|]. now exists v.
  - exists u, m, (m ++ literal "."), n.
    unfold xbind, xlift, new_object, py_format, xret, decref. cbn [indicator held objects error_texts]. rewrite U'.
    cbn [indicator held objects error_texts]. rewrite drop_head. split; [reflexivity|]. now split.
Qed.

Lemma fetch_text : forall repr utf8 d c t junk s rt, error_array junk ->
  repr (value_of (indicator s) (objects s)) = Some rt ->
  exists u m text n, error_fetch repr utf8 d c (Some (Some t)) junk s =
    Some (tt, mk_interp (match utf8 rt with Some _ => None | None => Some (Formatted X_ValueError []) end)
                (references (indicator s) (objects s) ++ held s) n (error_texts s ++ [(d, c, text)])) /\
  begins 2047 t u /\ without_stop u m /\
  match utf8 rt with
  | Some b => exists v, begins (N.of_nat (List.length b)) b v /\ text = m ++ literal " with error: " ++ v ++ literal "."
  | None => text = m ++ literal "."
  end.
Proof.
  intros repr utf8 d c t junk s rt J R. unfold error_fetch.
  destruct (vsnprintf_begins junk t) as (u & B & U). pose proof (vsnprintf_ok junk t) as K.
  destruct (vsnprintf junk error_string_size (Some t)) as [buf k]. cbn [fst snd] in U, K. rewrite K.
  destruct (remove_stop_text buf u U) as (buf' & m & RS & U' & W).
  unfold xbind at 1, xlift at 1. rewrite RS.
  destruct (fetch_run s) as (f & n & F & V). unfold xbind at 1. rewrite F. rewrite V.
  unfold exception_text. unfold xbind at 1 2 3, xlift at 1. rewrite R. unfold xbind at 1, new_object at 1.
  cbn [indicator held objects error_texts].
  destruct (utf8 rt) as [b|].
  - destruct (bytes_begin b) as (v & Ub & Bv).
    exists u, m, (m ++ literal " with error: " ++ v ++ literal "."), (S (S n)).
    unfold xbind, xlift, new_object, py_format, set_error, xret, decref. cbn [indicator held objects error_texts]. rewrite U', Ub.
    cbn [indicator held objects error_texts]. rewrite drop_head. cbn [indicator held objects error_texts]. rewrite drop_head.
    split; [reflexivity|]. split; [exact B|]. split; [exact W|]. now exists v.
  - exists u, m, (m ++ literal "."), (S n).
    unfold xbind, xlift, new_object, py_format, set_error, xret, decref. cbn [indicator held objects error_texts]. rewrite U'.
    cbn [indicator held objects error_texts]. rewrite drop_head. split; [reflexivity|]. now split.
Qed.

Lemma fetch_undefined : forall repr utf8 x t junk s, repr (value_of (indicator s) (objects s)) = None ->
  error_fetch_and_raise repr utf8 x (Some (Some t)) junk s = None.
Proof.
  intros repr utf8 x t junk s R. unfold error_fetch_and_raise.
  pose proof (vsnprintf_ok junk t) as K.
  destruct (vsnprintf junk error_string_size (Some t)) as [buf k]. cbn [snd] in K. rewrite K.
  unfold xbind at 1. destruct (xlift (remove_stop buf) s) as [[buf' s1]|] eqn:Q; [|reflexivity].
  unfold xlift in Q. destruct (remove_stop buf); [|discriminate]. injection Q as _ <-.
  destruct (fetch_run s) as (f & n & F & V). unfold xbind at 1. rewrite F, V.
  unfold exception_text, xbind at 1 2, xlift at 1. now rewrite R.
Qed.

(* a text without line ends and zeros *)
Lemma on_one_line_clean : forall u v, on_one_line u v -> ~ In 10 v /\ ~ In 13 v /\ (~ In 0 u -> ~ In 0 v) /\ List.length u = List.length v.
Proof.
  intros u v H. induction H as [|c d u v E H (I1 & I2 & I3 & I4)]; [cbn; intuition|].
  assert (Q : d <> 10 /\ d <> 13 /\ (c <> 0 -> d <> 0)).
  { rewrite E. destruct (N.eqb_spec c 10), (N.eqb_spec c 13); cbn [orb]; repeat split; (assumption || discriminate || (intros; assumption) || lia). }
  destruct Q as (Q1 & Q2 & Q3).
  cbn [In List.length]. repeat split; [intuition|intuition| |now rewrite I4].
  intros Z [J|J].
  - apply Q3; [|exact J]. intros ->. apply Z. now left.
  - apply I3; [|exact J]. intros K. apply Z. now right.
Qed.

Lemma begins_incl : forall n l t c, begins n l t -> In c t -> In c l.
Proof. intros n l t c ((r & -> & _) & _) I. apply in_or_app. now left. Qed.

Lemma raise_one_line : forall error x t junk s text s', error_array junk ->
  (forall b, error = Some (Some b) -> error_array b) -> ~ In 10 t -> ~ In 13 t ->
  error_raise_text error x (Some (Some t)) junk s = Some (tt, s') -> indicator s' = Some (Formatted x text) ->
  ~ In 10 text /\ ~ In 13 text /\ ~ In 0 text /\ N.of_nat (List.length text) <= 4095.
Proof.
  intros error x t junk s text s' J B T1 T2 R I.
  destruct (raise_text error x t junk s J B) as (text' & m & R' & Bm & H). rewrite R in R'. injection R' as ->.
  cbn [indicator] in I. injection I as ->.
  assert (M : ~ In 10 m /\ ~ In 13 m /\ ~ In 0 m /\ N.of_nat (List.length m) <= 2047).
  { split; [intros I; apply T1; eapply begins_incl; eassumption|]. split; [intros I; apply T2; eapply begins_incl; eassumption|].
    now destruct Bm as (_ & Z & L). }
  destruct M as (M1 & M2 & M3 & M4).
  destruct error as [[b|]|]; [|subst; repeat split; (assumption || lia)..].
  destruct H as (u & v & Bu & O & ->). destruct (on_one_line_clean u v O) as (V1 & V2 & V3 & V4).
  destruct Bu as (_ & Zu & Lu). specialize (V3 Zu).
  rewrite !in_app_iff. cbn [In]. rewrite !app_length. cbn [List.length].
  repeat split; try (intros [Q|[[Q|[]]|Q]]; try discriminate; auto); lia.
Qed.

Lemma fetch_keeps : ~ (forall repr utf8 x t junk s s', error_array junk ->
  error_fetch_and_raise repr utf8 x (Some (Some t)) junk s = Some (tt, s') -> held s' = held s).
Proof.
  intros H. set (s := mk_interp (Some (Occurred 3 (Some 4%nat) None)) [7%nat] 10 []).
  assert (A : error_array (repeat 0 (N.to_nat 2048))) by (unfold error_array; now rewrite repeat_length, Nnat.N2Nat.id).
  revert A. generalize (repeat 0 (N.to_nat 2048)). intros junk A.
  destruct (fetch_and_raise_text (fun _ => Some [98]) Some X_RuntimeError [102] junk s [98] A eq_refl)
    as (u & m & text & n & R & _).
  apply (H _ _ _ _ _ _ _ A) in R. discriminate.
Qed.

Lemma no_message : forall repr utf8 error x d c format junk s, format = None \/ format = Some None ->
  exists t1 t2 t3,
  error_raise_text error x format junk s = Some (tt, mk_interp (Some (Formatted X_ValueError (chars "pyhmac_error_raise: " ++ t1))) (held s) (objects s) (error_texts s)) /\
  error_fetch_and_raise repr utf8 x format junk s =
    Some (tt, mk_interp (Some (Formatted X_ValueError (chars "pyhmac_error_fetch_and_raise: " ++ t2))) (held s) (objects s) (error_texts s)) /\
  error_fetch repr utf8 d c format junk s = Some (tt, mk_interp (Some (Formatted X_ValueError (chars "pyhmac_error_fetch: " ++ t3))) (held s) (objects s) (error_texts s)).
Proof.
  intros repr utf8 error x d c format junk s [-> | ->].
  - exists (chars "missing format string."), (chars "missing format string."), (chars "missing format string."). repeat split.
  - exists (chars "unable to format exception string."), (chars "unable to format exception string."), (chars "unable to format error string."). repeat split.
Qed.
