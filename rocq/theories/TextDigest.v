(* The text of digest_hash_copy_to_string does what ToolStrings.v says. *)
From Coq Require Import Arith NArith ZArith List Lia Bool String.
From Verif Require Import Words Spec Machine Context Hash ToolStrings CText TextAll TextTools ToolCalls.
From Verif Require Import Vocab MachineFacts WordFacts ContextFacts DigestFacts HashFacts HmacFacts TextFacts TextContext TextUpdate TextLoops TextSteps TextHash TextHmac.
Import ListNotations.
Open Scope string_scope.
Open Scope list_scope.
Open Scope N_scope.

Lemma enter_tool : forall E sg vb dp sc fuel f def args s l l1 s2 R,
  find_fun (p_functions (tools_text sg vb)) f = Some def -> f_arrays def = [] ->
  bind_params E (f_params def) args = Some l ->
  enter_locals E (tools_text sg vb) (tool_call E dp sc) (f_locals def) l s = Done l1 s2 ->
  (forall kl ke, kl = leave E def ->
                ke = (fun fl l => match fl with
                             | FReturn v => kl fl l
                             | FBreak => undef
                             | _ => @den E (tools_text sg vb) (tool_call E dp sc) fuel _ (f_error def) l kl
                             end) ->
     @den E (tools_text sg vb) (tool_call E dp sc) fuel _ (f_body def) l1 ke s2 = R) ->
  run_tool E sg vb dp sc fuel f args s = R.
Proof.
  intros E sg vb dp sc fuel f def args s l l1 s2 R H1 H2 H3 H4 H5. unfold run_tool. rewrite H1, run_fun_eq, H3, H2.
  cbn [enter_arrays]. unfold ret. rewrite app_nil_r, H4. eapply H5; reflexivity.
Qed.

Lemma not_arr_chars : forall p, is_arr (v_chars p) = false.
Proof. intros []; reflexivity. Qed.
Lemma null_chars : forall p, is_null (v_chars p) = Some (match p with Some _ => false | None => true end).
Proof. intros []; reflexivity. Qed.

Lemma byte_keeps : forall p v s s1, wf_state s -> v < 256 -> write_byte p v s = Done tt s1 -> wf_state s1.
Proof. intros p v s s1 W V H. apply (write_keeps _ _ _ _ W) in H; [apply H|]. repeat constructor. exact V. Qed.

Section Digest.
  Variables (E : env) (sg vb : bool) (lp : option Z) (sc : bool) (fuel : nat).
  Notation P := (tools_text sg vb).
  Notation call := (tool_call E lp sc).
  Notation ev := (eval E P call).
  Variables (dp : ptr) (n : N) (sp : ptr) (m : N) (e : bool).

  Definition digest_locals (d t : val) (i j u : N) : locals :=
    [("digest_hash", d); ("digest_hash_size", VU RSz n); ("string", t); ("string_size", VU RSz m); ("error", v_error e);
     ("string_iterator", VU RSz i); ("digest_hash_iterator", VU RSz j); ("digest_digit", VU R8 u)].
  Notation L := (digest_locals (VBytes dp) (VChars sp)).

  Definition take_digit (o : bop) : stmt :=
    SAssign (EVar "digest_digit") (EBin o (EIndex (EVar "digest_hash") (EVar "digest_hash_iterator")) (EInt 16)).
  Definition put_digit : stmt :=
    SIf (EBin OLe (EVar "digest_digit") (EInt 9)) (
        SAssign (EIndex (EVar "string") (EPost "string_iterator")) (EChar (EBin OAdd (ECast false R8 (EInt 48)) (EVar "digest_digit"))))
      (
        SAssign (EIndex (EVar "string") (EPost "string_iterator")) (EChar (EBin OAdd (ECast false R8 (EInt 97)) (EBin OSub (EVar "digest_digit") (EInt 10))))).

  Lemma digit_of : forall o b x, b < 256 -> (o = ODiv /\ x = b / 16) \/ (o = OMod /\ x = b mod 16) ->
    binary E o (VU R8 b) (VS R32 16) = Some (VS R32 (Z.of_N x)).
  Proof.
    intros o b x Hb [(-> & ->)|(-> & ->)]; cbn [binary usual promote rank_max arith Z.eqb].
    - change 16%Z with (Z.of_N 16). rewrite <- N2Z.inj_quot. apply in_range_int.
      clear - Hb. assert (b / 16 <= 256) by (apply N.div_le_upper_bound; lia). generalize dependent (b / 16). intros; lia.
    - change 16%Z with (Z.of_N 16). rewrite <- N2Z.inj_quot, <- N2Z.inj_rem. rewrite in_range_int; [reflexivity|].
      clear - Hb. assert (b / 16 <= 256) by (apply N.div_le_upper_bound; lia). generalize dependent (b / 16). intros; lia.
  Qed.

  Lemma take_digit_run : forall o f i j u T (K : flow -> locals -> M T) s, wf_state s ->
    (o = ODiv /\ f = (fun b => b / 16)) \/ (o = OMod /\ f = (fun b => b mod 16)) ->
    @den E P call fuel T (take_digit o) (L i j u) K s = (b <- read_byte (ptr_add dp j) ;; K FNext (L i j (f b))) s.
  Proof.
    intros o f i j u T K s W Ho. unfold take_digit. rewrite den_assign, ev_bin_eq. unfold bind. cbn [eval].
    change (lget (L i j u) "digest_hash") with (Some (VBytes dp)). unfold bind, ret. cbn [fst snd].
    change (lget (L i j u) "digest_hash_iterator") with (Some (VU RSz j)). unfold lift, ret. cbn [fst snd amount index load_at].
    unfold bind, ret. destruct (read_byte (ptr_add dp j) s) as [b s1|] eqn:Rd; [|reflexivity].
    destruct (read_inv _ _ _ _ W Rd) as (-> & Vb). cbn [fst snd].
    rewrite (digit_of o b (f b) Vb) by (destruct Ho as [(-> & ->)|(-> & ->)]; auto).
    assert (Hf : f b < 256).
    { destruct Ho as [(_ & ->)|(_ & ->)]; [apply N.div_lt_upper_bound; lia|].
      pose proof (N.mod_lt b 16 ltac:(lia)). lia. }
    cbn [fst snd assign]. change (lget (L i j u) "digest_digit") with (Some (VU R8 u)). unfold bind.
    rewrite tu_byte, N2Z.id by lia. reflexivity.
  Qed.

  Lemma post_run : forall i j u s, i + 1 < size_mod E ->
    ev (EPost "string_iterator") (L i j u) s = Done (VU RSz i, L (i + 1) j u) s.
  Proof.
    intros i j u s Hi. cbn [eval]. change (lget (L i j u) "string_iterator") with (Some (VU RSz i)).
    assert (B : binary E OAdd (VU RSz i) (VS R32 1) = Some (VU RSz (i + 1))).
    { cbn [binary usual promote]. change (rank_leb R32 RSz) with true. cbv iota.
      change 1%Z with (Z.of_N 1). rewrite lit_size by reflexivity. cbn [arith]. now rewrite uadd_size. }
    unfold bind. rewrite B. reflexivity.
  Qed.

  Lemma small_cases : forall (Q : N -> Prop), Forall Q [0;1;2;3;4;5;6;7;8;9;10;11;12;13;14;15] -> forall u, u < 16 -> Q u.
  Proof.
    intros Q H u Hu. rewrite Forall_forall in H. apply H.
    assert (K : (N.to_nat u < 16)%nat) by lia. rewrite <- (N2Nat.id u). revert K. generalize (N.to_nat u). intros k K.
    do 16 (destruct k as [|k]; [cbn; tauto|]). lia.
  Qed.

  Lemma put_digit_run : forall i j u T (K : flow -> locals -> M T) s, u < 16 -> i + 1 < size_mod E ->
    @den E P call fuel T put_digit (L i j u) K s = (write_byte (ptr_add sp i) (digit_char u) ;;; K FNext (L (i + 1) j u)) s.
  Proof.
    intros i j u T K s Hu Hi.
    assert (V : exists x y,
      (if u <=? 9 then ev (EChar (EBin OAdd (ECast false R8 (EInt 48)) (EVar "digest_digit"))) (L i j u) s = Done (x, L i j u) s
       else ev (EChar (EBin OAdd (ECast false R8 (EInt 97)) (EBin OSub (EVar "digest_digit") (EInt 10)))) (L i j u) s = Done (x, L i j u) s) /\
      to_unsigned E R8 x = Some y /\ y = digit_char u).
    { revert u Hu. apply small_cases. repeat constructor; destruct sg; do 2 eexists; repeat split; reflexivity. }
    destruct V as (x & y & V & Tx & ->). unfold put_digit.
    assert (C : ev (EBin OLe (EVar "digest_digit") (EInt 9)) (L i j u) s = Done (truth (u <=? 9), L i j u) s).
    { clear V Tx. revert u Hu. apply small_cases. repeat constructor. }
    rewrite (decided _ _ _ _ _ _ _ _ _ _ _ _ C). clear C.
    assert (A : assign E P call (EIndex (EVar "string") (EPost "string_iterator")) x (L i j u) s =
                (write_byte (ptr_add sp i) (digit_char u) ;;; ret (L (i + 1) j u)) s).
    { cbn [assign]. unfold bind. change (ev (EVar "string") (L i j u) s) with (Done (VChars sp, L i j u) s). cbn [fst snd].
      rewrite post_run by exact Hi. cbn [fst snd amount lift]. unfold ret. cbn [fst snd index lift]. unfold ret. cbn [fst snd store_at]. unfold bind. rewrite Tx. reflexivity. }
    destruct (u <=? 9); rewrite den_assign, V; cbn [fst snd]; rewrite A; unfold bind, ret;
      destruct (write_byte (ptr_add sp i) (digit_char u) s) as [[] s1|]; reflexivity.
  Qed.

  Lemma digit_small : forall u, u < 16 -> digit_char u < 256.
  Proof. apply small_cases. repeat constructor. Qed.

  Variables (T : Type) (K : flow -> locals -> M T) (R : N -> M T).
  Definition copy_loop : stmt :=
    take_digit ODiv ;- put_digit ;- take_digit OMod ;- put_digit.

  Lemma copy_more : forall i j u s,
    ev (EBin OLt (EVar "digest_hash_iterator") (EVar "digest_hash_size")) (L i j u) s = Done (truth (j <? n), L i j u) s.
  Proof. reflexivity. Qed.

  Lemma copy_run : forall k f j u s, wf_state s -> (k <= f)%nat -> N.of_nat (j + k) = n -> 2 * n + 1 < size_mod E ->
    (forall u s1, wf_state s1 -> K FNext (L (2 * n) n u) s1 = R (2 * n) s1) ->
    @dloop E P call fuel T f (EBin OLt (EVar "digest_hash_iterator") (EVar "digest_hash_size"))
      (copy_loop ;- SOp OAdd (EVar "digest_hash_iterator") (EInt 1)) (L (2 * N.of_nat j) (N.of_nat j) u) K s =
    (x <- mfold (copy_digit_step dp sp) (seq j k) (2 * N.of_nat j) ;; R x) s.
  Proof.
    induction k as [|k IH]; intros f j u s W Hf Hj Hn HK.
    - rewrite Nat.add_0_r in Hj. rewrite dloop_end by (rewrite copy_more, Hj, N.ltb_irrefl; reflexivity). rewrite Hj. now apply HK.
    - destruct f as [|f]; [lia|].
      rewrite dloop_step by (rewrite copy_more; replace (N.of_nat j <? n) with true by (symmetry; apply N.ltb_lt; lia); reflexivity).
      cbn [seq mfold]. unfold copy_digit_step at 1. unfold copy_loop at 1. rewrite !den_seq.
      rewrite (take_digit_run _ (fun b => b / 16)) by auto.
      rewrite ?bind_assoc. apply bind_ext. intros b s1 R1. destruct (read_inv _ _ _ _ W R1) as (-> & V). clear R1.
      assert (D1 : b / 16 < 16) by (apply N.div_lt_upper_bound; lia).
      rewrite den_seq, put_digit_run by (trivial; lia).
      rewrite ?bind_assoc. apply bind_ext. intros [] s1 R1.
      pose proof (byte_keeps _ _ _ _ W (digit_small _ D1) R1) as W1. clear R1.
      rewrite den_seq, (take_digit_run _ (fun b => b mod 16)) by auto.
      rewrite ?bind_assoc. apply bind_ext. intros b' s2 R1. destruct (read_inv _ _ _ _ W1 R1) as (-> & V'). clear R1.
      assert (D2 : b' mod 16 < 16) by (apply N.mod_lt; discriminate).
      rewrite put_digit_run by (trivial; lia).
      rewrite ?bind_assoc. apply bind_ext. intros [] s2 R1.
      pose proof (byte_keeps _ _ _ _ W1 (digit_small _ D2) R1) as W2. clear R1.
      assert (Nx : forall K' : flow -> locals -> M T, @den E P call fuel T (SOp OAdd (EVar "digest_hash_iterator") (EInt 1))
                  (L (2 * N.of_nat j + 1 + 1) (N.of_nat j) (b' mod 16)) K' s2 =
                K' FNext (L (2 * N.of_nat (S j)) (N.of_nat (S j)) (b' mod 16)) s2).
      { intros K'. rewrite den_op. cbn [eval]. change (lget (L (2 * N.of_nat j + 1 + 1) (N.of_nat j) (b' mod 16)) "digest_hash_iterator") with (Some (VU RSz (N.of_nat j))).
        unfold ret. cbn [fst snd].
        assert (B : binary E OAdd (VU RSz (N.of_nat j)) (VS R32 1) = Some (VU RSz (N.of_nat (S j)))).
        { cbn [binary usual promote]. change (rank_leb R32 RSz) with true. cbv iota.
          change 1%Z with (Z.of_N 1). rewrite lit_size by reflexivity. cbn [arith]. rewrite uadd_size by lia. do 2 f_equal. lia. }
        rewrite B. replace (2 * N.of_nat (S j)) with (2 * N.of_nat j + 1 + 1) by lia. reflexivity. }
      rewrite Nx. replace (2 * N.of_nat j + 2) with (2 * N.of_nat (S j)) by lia.
      apply IH; [exact W2|lia|lia|exact Hn|exact HK].
  Qed.
End Digest.


Notation bad c := (SExpr (ECall "libcerror_error_set" [(EVar "error"); (EName "LIBCERROR_ERROR_DOMAIN_ARGUMENTS"); (EName c)]) ;- SReturn (EInt (-1))).

(* report an error and return -1 *)
Lemma failed : forall E P call fuel (T : Type) d c k e l (K : flow -> locals -> M T) s R,
  error_of d c = Some k -> lget l "error" = Some (v_error e) ->
  (forall s1, K (FReturn (VS R32 (-1))) l s1 = R (-1)%Z s1) ->
  @den E P call fuel T (SExpr (ECall "libcerror_error_set" [(EVar "error"); (EName d); (EName c)]) ;- SReturn (EInt (-1))) l K s =
  (r <- fail e k ;; R r) s.
Proof.
  intros E P call fuel T d c k e l K s R H1 H2 H3. rewrite den_seq, (erred _ _ _ _ _ _ _ k e _ _ _ H1 H2).
  unfold fail. rewrite bind_assoc. apply bind_ext. intros [] s1 _. rewrite den_return_int, H3. reflexivity.
Qed.

Lemma text_copy_to_string : forall E sg vb lp sc fuel d n t m e s,
  wf_state s -> n < size_mod E -> m < size_mod E -> (N.to_nat n <= fuel)%nat ->
  run_tool E sg vb lp sc fuel "digest_hash_copy_to_string" [v_bytes d; VU RSz n; v_chars t; VU RSz m; v_error e] s =
  (r <- digest_hash_copy_to_string E d n t m e ;; ret (VS R32 r, [None; None; None; None; None])) s.
Proof.
  intros E sg vb lp sc fuel d n t m e s W Hn Hm Hf.
  eapply enter_tool; [reflexivity|reflexivity|tpar|tloc|].
  intros kl ke Hkl Hke.
  set (L := fun i j u => digest_locals n m e (v_bytes d) (v_chars t) i j u).
  match goal with |- @den _ _ _ _ _ _ ?l _ _ = _ => change l with (L 0 0 0) end.
  set (R := fun r => ret (VS R32 r, [None; None; None; None; None]) : M (val * list (option val))).
  assert (Hret : forall z i j u s1, ke (FReturn (VS R32 z)) (L i j u) s1 = R z s1).
  { intros. subst ke kl L R. destruct d, t, e; reflexivity. }
  clear Hke Hkl. unfold digest_hash_copy_to_string.
  match goal with |- @den _ _ _ _ _ (f_body ?d) _ _ _ = _ => let b := eval hnf in (f_body d) in change (f_body d) with b end.
  assert (Elim : forall i j u x, binary E OGt (VU RSz x) (VU RSz (ssize_max E)) = Some (truth (ssize_max E <? x)) ->
     forall y, lget (L i j u) y = Some (VU RSz x) ->
     eval E (tools_text sg vb) (tool_call E lp sc) (EBin OGt (EVar y) (ECast false RSz ESsizeMax)) (L i j u) s = Done (truth (ssize_max E <? x), L i j u) s).
  { intros i j u x Hb y Hy. eapply ev_bin; [eapply ev_var; [exact Hy|reflexivity]|tev|exact Hb]. }
  rewrite den_seq, (missing _ _ _ _ _ "digest_hash" (v_bytes d)) with (b := match d with Some _ => false | None => true end) by (reflexivity || apply null_bytes).
  destruct d as [dp|]; [rewrite den_skip|eapply failed; [reflexivity|reflexivity|intros; apply Hret]].
  rewrite den_seq. erewrite decided by (apply Elim; [apply bin_uu; [reflexivity|discriminate|discriminate|reflexivity]|reflexivity]).
  destruct (ssize_max E <? n) eqn:C1; [eapply failed; [reflexivity|reflexivity|intros; apply Hret]|rewrite den_skip].
  rewrite den_seq, (missing _ _ _ _ _ "string" (v_chars t)) with (b := match t with Some _ => false | None => true end) by (reflexivity || apply null_chars).
  destruct t as [tp|]; [rewrite den_skip|eapply failed; [reflexivity|reflexivity|intros; apply Hret]].
  rewrite den_seq. erewrite decided by (apply Elim; [apply bin_uu; [reflexivity|discriminate|discriminate|reflexivity]|reflexivity]).
  destruct (ssize_max E <? m) eqn:C2; [eapply failed; [reflexivity|reflexivity|intros; apply Hret]|rewrite den_skip].
  apply N.ltb_ge in C1, C2.
  assert (Hs : ssize_max E < size_mod E /\ 2 * ssize_max E + 1 < size_mod E) by (unfold ssize_max, size_mod; destruct (plat64 E); lia).
  assert (Sm : eval E (tools_text sg vb) (tool_call E lp sc) (EBin OLt (EVar "string_size") (EBin OAdd (EBin OMul (EInt 2) (EVar "digest_hash_size")) (EInt 1))) (L 0 0 0) s =
    Done (truth (m <? (2 * n + 1) mod size_mod E), L 0 0 0) s).
  { eapply ev_bin; [eapply ev_var; reflexivity| |].
    { eapply ev_bin; [eapply ev_bin; [reflexivity|eapply ev_var; reflexivity|] |reflexivity|].
      - eapply bin_su; [reflexivity|reflexivity|discriminate|discriminate|tunum|]. cbn [arith]. rewrite bits_size_mod, N.mod_small by lia. reflexivity.
      - eapply bin_us; [reflexivity|reflexivity|discriminate|discriminate|tunum|]. cbn [arith]. unfold uadd. rewrite bits_size_mod. reflexivity. }
    apply bin_uu; [reflexivity|discriminate|discriminate|reflexivity]. }
  rewrite den_seq, (decided _ _ _ _ _ _ _ _ _ _ _ _ Sm). clear Sm.
  destruct (m <? (2 * n + 1) mod size_mod E) eqn:C3; [eapply failed; [reflexivity|reflexivity|intros; apply Hret]|rewrite den_skip].
  apply N.ltb_ge in C3. rewrite N.mod_small in C3 by lia.
  rewrite den_seq, den_for, den_assign. cbn [eval]. unfold ret at 1. cbn [fst snd assign].
  change (lget (L 0 0 0) "digest_hash_iterator") with (Some (VU RSz 0)). unfold bind at 1.
  replace (to_unsigned E RSz (VS R32 0)) with (Some 0) by (symmetry; tunum). cbn [lift]. unfold ret at 1.
  change (lset (L 0 0 0) "digest_hash_iterator" (VU RSz 0)) with (Some (L (2 * N.of_nat 0) (N.of_nat 0) 0)). cbn [lift]. unfold ret at 1.
  etransitivity; [refine (copy_run E sg vb lp sc fuel dp n tp m e _ _ (fun x => (write_byte (ptr_add tp x) 0 ;;; R 1%Z)) (N.to_nat n) fuel 0 0 s W Hf _ _ _); [lia| |]|].
  3: { rewrite bind_assoc. apply bind_ext. intros x s1 _. rewrite bind_assoc. reflexivity. }
  - assert (2 * n + 1 <= ssize_max E) by lia. lia.
  - intros u s1 W1. rewrite den_seq, den_assign. cbn [eval]. unfold ret at 1. cbn [fst snd].
    assert (A : assign E (tools_text sg vb) (tool_call E lp sc) (EIndex (EVar "string") (EVar "string_iterator")) (VS R32 0) (L (2 * n) n u) s1 =
                (write_byte (ptr_add tp (2 * n)) 0 ;;; ret (L (2 * n) n u)) s1).
    { cbn [assign eval]. change (lget (L (2 * n) n u) "string") with (Some (VChars tp)). unfold bind, ret. cbn [fst snd].
      change (lget (L (2 * n) n u) "string_iterator") with (Some (VU RSz (2 * n))). reflexivity. }
    change (digest_locals n m e (VBytes dp) (VChars tp) (2 * n) n u) with (L (2 * n) n u). rewrite A. unfold bind, ret.
    destruct (write_byte (ptr_add tp (2 * n)) 0 s1) as [[] s2|]; [|reflexivity]. rewrite den_return_int. apply Hret.
Qed.
