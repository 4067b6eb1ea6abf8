(* The text of hmactools_getopt does what Getopt.v says. *)
From Coq Require Import Arith NArith ZArith List Lia Bool String.
From Verif Require Import Words Spec Machine Context Hash ToolStrings Getopt CText TextAll TextTools ToolCalls.
From Verif Require Import Vocab MachineFacts WordFacts ContextFacts DigestFacts HashFacts HmacFacts TextFacts TextContext TextUpdate TextLoops TextSteps TextHash TextHmac
  TextDigest TextSizes.
Import ListNotations.
Open Scope string_scope.
Open Scope list_scope.
Open Scope N_scope.

Notation AV := (EVar "argument_value").
Notation OV := (EVar "option_value").
Notation first x := (EIndex x (EInt 0)).

Lemma strings_nth : forall s ps argv i t, strings_at s ps argv -> nth_error argv i = Some t ->
  exists p, nth_error ps i = Some p /\ view p s = Done (t ++ [0]) s.
Proof.
  intros s ps argv i t H. revert i. induction H as [|p u ps argv Hp H IH]; intros [|i] Hi; try discriminate.
  - injection Hi as <-. exists p. split; [reflexivity|exact Hp].
  - apply IH, Hi.
Qed.
Lemma strings_length : forall s ps argv, strings_at s ps argv -> List.length ps = List.length argv.
Proof. intros s ps argv H. induction H; cbn; congruence. Qed.

Lemma hd_skipn : forall (A : Type) (l : list A) n, hd_error (skipn n l) = nth_error l n.
Proof. intros A l. induction l as [|x l IH]; intros [|n]; try reflexivity. apply IH. Qed.

Section Getopt.
  Variables (E : env) (sg vb : bool) (lp : option Z) (sc : bool) (fuel : nat) (ps : list ptr) (argv : list (list N)) (q : ptr) (options : list N) (s : state).
  Local Notation P := (tools_text sg vb).
  Local Notation call := (tool_call E lp sc).
  Local Notation ev := (eval E P call).
  Variable T : Type.
  Local Notation dn := (@den E P call fuel T).
  Hypothesis W : wf_state s.
  Hypothesis Hargs : strings_at s ps argv.
  Hypothesis Hopts : view q s = Done (options ++ [0]) s.
  Hypothesis Hsmall : Forall (fun c => 0 < c < 128) options.
  Hypothesis Hol : N.of_nat (List.length options) < size_mod E.
  Hypothesis Hal : (Z.of_nat (List.length argv) < 2 ^ 31 - 2)%Z.

  Definition gl (av ov : val) (n : N) (g : getopt_state) : locals :=
    [("argument_count", VS R32 (Z.of_nat (List.length argv))); ("argument_values", VPtrs (map VChars ps)); ("options_string", VChars q);
     ("optind", VRef (VS R32 (Z.of_nat (optind g)))); ("optarg", VRef (v_at ps (optarg g))); ("optopt", VRef (VS R32 (cz sg (optopt g))));
     ("next_option", VRef (v_at ps (next_option g))); ("argument_value", av); ("option_value", ov); ("options_string_length", VU RSz n)].

  Lemma place_null : forall x, is_null (v_at ps x) = Some (match v_at ps x with VNull => true | _ => false end).
  Proof. intros [[i j]|]; [|reflexivity]. cbn [v_at]. destruct (nth_error ps i); reflexivity. Qed.

  (* the first character at a pointer in a variable *)
  Lemma first_run : forall l x p t j, lget l x = Some (VChars (ptr_add p (N.of_nat j))) -> view p s = Done t s ->
    ev (first (EVar x)) l s = match nth_error t j with Some c => Done (char_value P c, l) s | None => Undef end.
  Proof.
    intros l x p t j H Hv. cbn [eval]. rewrite H. unfold bind, ret. cbn [fst snd amount lift Z.leb Z.compare Z.to_N index]. unfold ret. cbn [load_at]. unfold bind.
    replace (ptr_add (ptr_add p (N.of_nat j)) 0) with (ptr_add p (N.of_nat j)) by (unfold ptr_add; cbn [fst snd]; f_equal; lia).
    rewrite (view_read _ _ _ _ Hv), Nat2N.id. unfold aget. destruct (nth_error t j); reflexivity.
  Qed.
  Lemma is_first : forall l x p t j k, k < 128 -> lget l x = Some (VChars (ptr_add p (N.of_nat j))) -> view p s = Done t s ->
    ev (EBin OEq (first (EVar x)) (EChar (EInt (Z.of_N k)))) l s = match nth_error t j with Some c => Done (truth (c =? k), l) s | None => Undef end.
  Proof.
    intros l x p t j k Hk H Hv. destruct (nth_error t j) as [c|] eqn:C.
    - destruct (view_inv _ _ _ _ W Hv) as (_ & B). rewrite Forall_forall in B. pose proof (B _ (nth_error_In _ _ C)) as Bc.
      destruct (char_literal E sg vb call l s (Z.of_N k) ltac:(lia)) as (v & H1 & H2).
      eapply ev_bin; [rewrite (first_run _ _ _ _ _ H Hv), C; reflexivity|exact H1|].
      rewrite (bin_int E OEq _ _ _ _ (char_promote sg vb c) H2) by discriminate. cbn [arith]. rewrite cz_eqb by assumption. reflexivity.
    - apply ev_bin_undef. rewrite (first_run _ _ _ _ _ H Hv), C. reflexivity.
  Qed.
  Lemma isnt_first : forall l x p t j k, k < 128 -> lget l x = Some (VChars (ptr_add p (N.of_nat j))) -> view p s = Done t s ->
    ev (EBin ONe (first (EVar x)) (EChar (EInt (Z.of_N k)))) l s = match nth_error t j with Some c => Done (truth (negb (c =? k)), l) s | None => Undef end.
  Proof.
    intros l x p t j k Hk H Hv. destruct (nth_error t j) as [c|] eqn:C.
    - destruct (view_inv _ _ _ _ W Hv) as (_ & B). rewrite Forall_forall in B. pose proof (B _ (nth_error_In _ _ C)) as Bc.
      destruct (char_literal E sg vb call l s (Z.of_N k) ltac:(lia)) as (v & H1 & H2).
      eapply ev_bin; [rewrite (first_run _ _ _ _ _ H Hv), C; reflexivity|exact H1|].
      rewrite (bin_int E ONe _ _ _ _ (char_promote sg vb c) H2) by discriminate. cbn [arith]. rewrite cz_eqb by assumption. reflexivity.
    - apply ev_bin_undef. rewrite (first_run _ _ _ _ _ H Hv), C. reflexivity.
  Qed.

  Lemma add_optind : forall av ov n g (K : flow -> locals -> M T), (Z.of_nat (optind g) < 2 ^ 31 - 1)%Z ->
    dn (SOp OAdd (EOut "optind") (EInt 1)) (gl av ov n g) K s = K FNext (gl av ov n (set_optind (S (optind g)) g)) s.
  Proof.
    intros av ov n g K H. rewrite den_op. change (ev (EOut "optind") (gl av ov n g) s) with (Done (VS R32 (Z.of_nat (optind g)), gl av ov n g) s). cbn [fst snd].
    change (ev (EInt 1) (gl av ov n g) s) with (Done (VS R32 1, gl av ov n g) s). cbn [fst snd].
    cbn [binary usual promote rank_max arith]. rewrite in_range_int by lia. replace (Z.of_nat (optind g) + 1)%Z with (Z.of_nat (S (optind g))) by lia. reflexivity.
  Qed.

  (* the pointer to the next character *)
  Lemma next_av : forall p i j ov n g (K : flow -> locals -> M T), nth_error ps i = Some p ->
    dn (SAssign AV (EAddr (EIndex AV (EInt 1)))) (gl (v_at ps (Some (i, j))) ov n g) K s = K FNext (gl (v_at ps (Some (i, S j))) ov n g) s.
  Proof.
    intros p i j ov n g K H. cbn [v_at]. rewrite H.
    replace (ptr_add p (N.of_nat (S j))) with (ptr_add (ptr_add p (N.of_nat j)) 1) by (unfold ptr_add; cbn [fst snd]; f_equal; lia). reflexivity.
  Qed.

  (* ------------------------------------------------------------- the option *)

  Definition search_part (rest : stmt) : stmt :=
    SAssign (EVar "options_string_length") (ECall "system_string_length" [(EVar "options_string")]) ;-
    SAssign (EOut "optopt") (first AV) ;-
    SAssign OV (ECall "system_string_search_character" [(EVar "options_string"); (EOut "optopt"); (EVar "options_string_length")]) ;-
    rest.

  Lemma index_of_end : forall l, Forall (fun c => 0 < c < 128) l -> index_of 0 (l ++ [0]) = Some (List.length l).
  Proof.
    induction l as [|x l IH]; intros H; [reflexivity|]. inversion H as [|y m Hx Hl]; subst. cbn [app index_of].
    replace (x =? 0) with false by (symmetry; apply N.eqb_neq; lia). rewrite IH by exact Hl. reflexivity.
  Qed.
  Lemma cz_byte : forall c, c < 256 -> to_unsigned E R8 (VS R32 (cz sg c)) = Some c.
  Proof.
    intros c H. cbn [to_unsigned]. f_equal. change (2 ^ Z.of_N (bits E R8))%Z with 256%Z. unfold cz. destruct sg.
    - destruct (N.ltb_spec c 128); [rewrite Z.mod_small; lia|]. rewrite <- (Z_mod_plus_full _ 1). rewrite Z.mod_small; lia.
    - rewrite Z.mod_small; lia.
  Qed.
  Definition v_option (x : option nat) : val := match x with Some i => VChars (ptr_add q (N.of_nat i)) | None => VNull end.

  Lemma search_run : forall rest p t j g av (K : flow -> locals -> M T), av = VChars (ptr_add p (N.of_nat j)) -> view p s = Done t s ->
    dn (search_part rest) (gl av VNull 0 g) K s =
    match nth_error t j with
    | Some c => dn rest (gl av (v_option (search_character sc c options)) (N.of_nat (List.length options)) (set_optopt c g)) K s
    | None => Undef
    end.
  Proof.
    intros rest p t j g av K Hav Hv. destruct (view_inv _ _ _ _ W Hv) as (_ & B). rewrite Forall_forall in B.
    unfold search_part. rewrite den_seq, den_assign.
    assert (V1 : ev (ECall "system_string_length" [(EVar "options_string")]) (gl av VNull 0 g) s = Done (VU RSz (N.of_nat (List.length options)), gl av VNull 0 g) s).
    { change (ev (ECall "system_string_length" [(EVar "options_string")]) (gl av VNull 0 g) s) with
        ((r <- (v <- view q ;; n <- lift (index_of 0 v) ;; ret (VU RSz (N.of_nat n), [@None val])) ;; l' <- lift (copy_out [(EVar "options_string")] (snd r) (gl av VNull 0 g)) ;; ret (fst r, l')) s).
      unfold bind. rewrite Hopts. rewrite index_of_end by exact Hsmall. reflexivity. }
    rewrite V1. cbn [fst snd]. change (assign E P call (EVar "options_string_length") (VU RSz (N.of_nat (List.length options))) (gl av VNull 0 g) s)
      with (Done (gl av VNull (N.of_nat (List.length options)) g) s). cbv iota.
    set (n := N.of_nat (List.length options)) in *.
    rewrite den_seq, den_assign, (first_run _ _ p t j) by (try exact Hv; cbn; rewrite Hav; reflexivity).
    destruct (nth_error t j) as [c|] eqn:Hc; [|reflexivity]. pose proof (B _ (nth_error_In _ _ Hc)) as Bc. change (c < 256) in Bc. cbn [fst snd].
    assert (A : assign E P call (EOut "optopt") (char_value P c) (gl av VNull n g) s = Done (gl av VNull n (set_optopt c g)) s).
    { cbn [assign]. change (lget (gl av VNull n g) "optopt") with (Some (VRef (VS R32 (cz sg (optopt g))))).
      assert (S1 : to_signed E R32 (char_value P c) = Some (cz sg c)).
      { unfold char_value. cbn [tools_text p_char]. unfold cz. destruct sg; cbn [to_signed rank_eqb]; f_equal.
        - change (2 ^ Z.of_N (bits E R32))%Z with (2 ^ 32)%Z. change (2 ^ Z.of_N (bits E R32 - 1))%Z with (2 ^ 31)%Z.
          destruct (N.ltb_spec c 128).
          + rewrite Z.mod_small by lia. destruct (Z.ltb_spec (Z.of_N c) (2 ^ 31)); lia.
          + replace ((Z.of_N c - 256) mod 2 ^ 32)%Z with (Z.of_N c - 256 + 2 ^ 32)%Z by (rewrite <- (Z_mod_plus_full (Z.of_N c - 256) 1 (2 ^ 32)), Z.mod_small; lia).
            destruct (Z.ltb_spec (Z.of_N c - 256 + 2 ^ 32) (2 ^ 31)); lia.
        - change (2 ^ Z.of_N (bits E R32))%Z with (2 ^ 32)%Z. change (2 ^ Z.of_N (bits E R32 - 1))%Z with (2 ^ 31)%Z.
          rewrite Z.mod_small by lia. destruct (Z.ltb_spec (Z.of_N c) (2 ^ 31)); lia. }
      unfold bind. rewrite S1. reflexivity. }
    rewrite A. rewrite den_seq, den_assign.
    assert (V2 : ev (ECall "system_string_search_character" [(EVar "options_string"); (EOut "optopt"); (EVar "options_string_length")]) (gl av VNull n (set_optopt c g)) s =
                 Done (v_option (search_character sc c options), gl av VNull n (set_optopt c g)) s).
    { change (ev (ECall "system_string_search_character" [(EVar "options_string"); (EOut "optopt"); (EVar "options_string_length")]) (gl av VNull n (set_optopt c g)) s) with
        ((r <- (x <- lift (to_unsigned E R8 (VS R32 (cz sg c))) ;;
                v <- view q ;;
                t <- lift (if sc then option_map (fun z => firstn (S z) v) (index_of 0 v) else take n v) ;;
                ret (match index_of x t with Some i => VChars (ptr_add q (N.of_nat i)) | None => VNull end, [@None val; None; None])) ;;
          l' <- lift (copy_out [(EVar "options_string"); (EOut "optopt"); (EVar "options_string_length")] (snd r) (gl av VNull n (set_optopt c g))) ;; ret (fst r, l')) s).
      unfold bind. rewrite cz_byte by exact Bc. cbn [lift]. unfold ret at 1. rewrite Hopts, index_of_end by exact Hsmall. unfold search_character.
      assert (Tk : (if sc then option_map (fun z => firstn (S z) (options ++ [0])) (Some (List.length options)) else take n (options ++ [0])) =
                   Some (if sc then options ++ [0] else options)).
      { destruct sc.
        - cbn [option_map]. rewrite firstn_all2; [reflexivity|]. rewrite app_length. cbn. lia.
        - unfold take, n. rewrite app_length. cbn [List.length]. replace (N.of_nat (List.length options) <=? N.of_nat (List.length options + 1)) with true by (symmetry; apply N.leb_le; lia).
          rewrite Nat2N.id, firstn_app, Nat.sub_diag, firstn_all. cbn [firstn]. rewrite app_nil_r. reflexivity. }
      rewrite Tk. cbn [lift]. unfold ret, v_option. destruct (index_of c (if sc then options ++ [0] else options)); reflexivity. }
    rewrite V2. cbn [fst snd]. unfold v_option. destruct (search_character sc c options); reflexivity.
  Qed.

  Definition unknown_part : stmt :=
    SIf (EBin OEq (first AV) (EChar (EInt 0))) (
      SOp OAdd (EOut "optind") (EInt 1)) SSkip ;-
    SIf (ELogAnd (EBin ONe (first (EVar "options_string")) (EChar (EInt 58))) (EBin ONe (EOut "optopt") (ECast true R32 (EInt 63)))) (
      SExpr (ECall "libcnotify_printf" [])) SSkip ;-
    SReturn (ECast true R32 (EInt 63)).
  Definition known_part : stmt :=
    SIf (EBin ONe (first OV) (EChar (EInt 58))) (
      SAssign (EStar "optarg") ENull ;-
      SIf (EBin OEq (first AV) (EChar (EInt 0))) (
        SOp OAdd (EOut "optind") (EInt 1))
      (
        SAssign (EStar "next_option") AV))
    (
      SIf (EBin ONe (first AV) (EChar (EInt 0))) (
        SAssign (EStar "optarg") AV ;-
        SOp OAdd (EOut "optind") (EInt 1))
      (
        SOp OAdd (EOut "optind") (EInt 1) ;-
        SIf (EBin OLe (EVar "argument_count") (EOut "optind")) (
          SIf (EBin OEq (first OV) (EInt 58)) (
            SReturn (ECast true R32 (EInt 58))) SSkip ;-
          SExpr (ECall "libcnotify_printf" []) ;-
          SReturn (ECast true R32 (EInt 63))) SSkip ;-
        SAssign (EStar "optarg") (EIndex (EVar "argument_values") (EOut "optind")) ;-
        SOp OAdd (EOut "optind") (EInt 1))) ;-
    SReturn (EOut "optopt").
  Definition option_part : stmt := search_part (
    SAssign AV (EAddr (EIndex AV (EInt 1))) ;-
    SIf (ELogOr (EBin OEq (EOut "optopt") (ECast true R32 (EInt 58))) (EBin OEq OV ENull)) unknown_part SSkip ;-
    SAssign OV (EAddr (EIndex OV (EInt 1))) ;-
    known_part).

  Definition answer (K : flow -> locals -> M T) (R : Z -> getopt_state -> outcome T) : Prop :=
    forall z av ov n g, K (FReturn (VS R32 z)) (gl av ov n g) s = R z g.

  Lemma unknown_run : forall p i j t ov n g (K : flow -> locals -> M T) R, answer K R ->
    nth_error argv i = Some t -> nth_error ps i = Some p -> view p s = Done (t ++ [0]) s -> (Z.of_nat (optind g) < 2 ^ 31 - 2)%Z ->
    dn unknown_part (gl (v_at ps (Some (i, j))) ov n g) K s =
    match nth_error (t ++ [0]) j with
    | Some d => R 63%Z (if d =? 0 then set_optind (S (optind g)) g else g)
    | None => Undef
    end.
  Proof.
    intros p i j t ov n g K R HK Ht Hp Hv Ho. unfold unknown_part. cbn [v_at]. rewrite Hp.
    assert (Msg : forall av g1, dn (SIf (ELogAnd (EBin ONe (first (EVar "options_string")) (EChar (EInt 58))) (EBin ONe (EOut "optopt") (ECast true R32 (EInt 63)))) (
      SExpr (ECall "libcnotify_printf" [])) SSkip ;- SReturn (ECast true R32 (EInt 63))) (gl av ov n g1) K s = R 63%Z g1).
    { intros av g1. rewrite den_seq.
      assert (exists b, ev (ELogAnd (EBin ONe (first (EVar "options_string")) (EChar (EInt 58))) (EBin ONe (EOut "optopt") (ECast true R32 (EInt 63)))) (gl av ov n g1) s = Done (truth b, gl av ov n g1) s) as (b & Hb).
      { destruct (nth_error (options ++ [0]) 0) as [c0|] eqn:C0.
        2: { apply nth_error_None in C0. rewrite app_length in C0. cbn in C0. lia. }
        eexists. apply ev_and.
        - pose proof (isnt_first (gl av ov n g1) "options_string" q (options ++ [0]) 0 58 ltac:(lia)) as Q. rewrite C0 in Q. apply Q; [|exact Hopts].
          cbn. do 2 f_equal. unfold ptr_add. destruct q; cbn; f_equal; lia.
        - intros _. reflexivity. }
      rewrite (decided _ _ _ _ _ _ _ _ _ _ _ _ Hb).
      destruct b; [|rewrite den_skip; rewrite den_return; apply HK].
      change (dn (SExpr (ECall "libcnotify_printf" [])) (gl av ov n g1) ?k s) with (k FNext (gl av ov n g1) s). cbv beta iota. rewrite den_return. apply HK. }
    rewrite den_seq. pose proof (is_first (gl (VChars (ptr_add p (N.of_nat j))) ov n g) "argument_value" p (t ++ [0]) j 0 ltac:(lia) eq_refl Hv) as C.
    change (Z.of_N 0) with 0%Z in C.
    destruct (nth_error (t ++ [0]) j) as [d|]; [|apply if_undef, C].
    rewrite (decided _ _ _ _ _ _ _ _ _ _ _ _ C). destruct (d =? 0).
    - rewrite add_optind by lia. apply Msg.
    - rewrite den_skip. apply Msg.
  Qed.

  Lemma set_arg : forall av ov n g x, assign E P call (EStar "optarg") (v_at ps x) (gl av ov n g) s = Done (gl av ov n (set_optarg x g)) s.
  Proof.
    intros av ov n g x. cbn [assign]. change (lget (gl av ov n g) "optarg") with (Some (VRef (v_at ps (optarg g)))). cbv iota.
    unfold bind. rewrite place_null. reflexivity.
  Qed.
  Lemma set_next : forall av ov n g x, assign E P call (EStar "next_option") (v_at ps x) (gl av ov n g) s = Done (gl av ov n (set_next_option x g)) s.
  Proof.
    intros av ov n g x. cbn [assign]. change (lget (gl av ov n g) "next_option") with (Some (VRef (v_at ps (next_option g)))). cbv iota.
    unfold bind. rewrite place_null. reflexivity.
  Qed.

  Lemma ev_av : forall x ov n g, ev AV (gl (v_at ps x) ov n g) s = Done (v_at ps x, gl (v_at ps x) ov n g) s.
  Proof. intros [[i j]|] ov n g; [|reflexivity]. cbn [v_at]. destruct (nth_error ps i); reflexivity. Qed.

  Lemma arg_run : forall av ov n g p, nth_error ps (optind g) = Some p ->
    ev (EIndex (EVar "argument_values") (EOut "optind")) (gl av ov n g) s = Done (v_at ps (Some (optind g, 0%nat)), gl av ov n g) s.
  Proof.
    intros av ov n g p Hp. cbn [eval]. change (lget (gl av ov n g) "argument_values") with (Some (VPtrs (map VChars ps))).
    unfold bind, ret. cbn [fst snd lift]. unfold ret.
    change (lget (gl av ov n g) "optind") with (Some (VRef (VS R32 (Z.of_nat (optind g))))). cbn [fst snd amount].
    replace (0 <=? Z.of_nat (optind g))%Z with true by (symmetry; apply Z.leb_le; lia). cbn [lift]. unfold ret. cbn [index].
    replace (Z.to_N (Z.of_nat (optind g))) with (N.of_nat (optind g)) by lia. rewrite Nat2N.id. cbn [lift]. unfold ret. cbn [load_at]. rewrite hd_skipn.
    rewrite nth_error_map, Hp. cbn [option_map v_at]. rewrite Hp. unfold lift, ret. do 4 f_equal. unfold ptr_add. destruct p. cbn. f_equal. lia.
  Qed.

  Lemma known_run : forall p i j t v n g (K : flow -> locals -> M T) R, answer K R ->
    nth_error argv i = Some t -> nth_error ps i = Some p -> view p s = Done (t ++ [0]) s -> (Z.of_nat (optind g) < 2 ^ 31 - 2)%Z -> optopt g < 128 ->
    dn known_part (gl (v_at ps (Some (i, j))) (VChars (ptr_add q (N.of_nat v))) n g) K s =
    match nth_error (options ++ [0]) v, nth_error (t ++ [0]) j with
    | Some o, Some d =>
        if negb (o =? 58) then
          R (Z.of_N (optopt g)) (if d =? 0 then set_optind (S (optind g)) (set_optarg None g) else set_next_option (Some (i, j)) (set_optarg None g))
        else if negb (d =? 0) then R (Z.of_N (optopt g)) (set_optind (S (optind g)) (set_optarg (Some (i, j)) g))
        else if Nat.leb (List.length argv) (S (optind g)) then R 58%Z (set_optind (S (optind g)) g)
        else R (Z.of_N (optopt g)) (set_optind (S (S (optind g))) (set_optarg (Some (S (optind g), 0%nat)) (set_optind (S (optind g)) g)))
    | _, _ => Undef
    end.
  Proof.
    intros p i j t v n g K R HK Ht Hp Hv Ho Hc. unfold known_part. set (av := v_at ps (Some (i, j))). set (ov := VChars (ptr_add q (N.of_nat v))).
    assert (Hav : av = VChars (ptr_add p (N.of_nat j))) by (unfold av; cbn [v_at]; rewrite Hp; reflexivity).
    assert (Ret : forall g1, optopt g1 = optopt g -> dn (SReturn (EOut "optopt")) (gl av ov n g1) K s = R (Z.of_N (optopt g)) g1).
    { intros g1 H. rewrite den_return. change (ev (EOut "optopt") (gl av ov n g1) s) with (Done (VS R32 (cz sg (optopt g1)), gl av ov n g1) s). cbn [fst snd].
      rewrite H. replace (cz sg (optopt g)) with (Z.of_N (optopt g)); [apply HK|].
      unfold cz. destruct sg; [|reflexivity]. destruct (N.ltb_spec (optopt g) 128); [reflexivity|lia]. }
    rewrite den_seq.
    pose proof (isnt_first (gl av ov n g) "option_value" q (options ++ [0]) v 58 ltac:(lia) eq_refl Hopts) as C. change (Z.of_N 58) with 58%Z in C.
    destruct (nth_error (options ++ [0]) v) as [o|] eqn:Hov; [|apply if_undef, C].
    rewrite (decided _ _ _ _ _ _ _ _ _ _ _ _ C). destruct (N.eqb_spec o 58) as [O|O]; cbn [negb].
    - pose proof (isnt_first (gl av ov n g) "argument_value" p (t ++ [0]) j 0 ltac:(lia) (f_equal (@Some val) Hav) Hv) as D. change (Z.of_N 0) with 0%Z in D.
      destruct (nth_error (t ++ [0]) j) as [d|] eqn:Hd; [|apply if_undef, D].
      rewrite (decided _ _ _ _ _ _ _ _ _ _ _ _ D). destruct (N.eqb_spec d 0) as [Z0|Z0]; cbn [negb].
      + rewrite den_seq, add_optind by lia. set (g1 := set_optind (S (optind g)) g). rewrite den_seq.
        assert (L : ev (EBin OLe (EVar "argument_count") (EOut "optind")) (gl av ov n g1) s = Done (truth (Nat.leb (List.length argv) (S (optind g))), gl av ov n g1) s).
        { eapply ev_bin; [reflexivity|reflexivity|]. cbn [binary usual promote rank_max arith optind g1 set_optind]. do 2 f_equal. unfold truth.
          destruct (Z.leb_spec (Z.of_nat (List.length argv)) (Z.of_nat (S (optind g)))), (Nat.leb_spec (List.length argv) (S (optind g))); try reflexivity; lia. }
        rewrite (decided _ _ _ _ _ _ _ _ _ _ _ _ L). destruct (Nat.leb_spec (List.length argv) (S (optind g))) as [LE|LE].
        * rewrite den_seq.
          assert (F : ev (EBin OEq (first OV) (EInt 58)) (gl av ov n g1) s = Done (truth true, gl av ov n g1) s).
          { eapply ev_bin; [rewrite (first_run (gl av ov n g1) "option_value" q _ v eq_refl Hopts), Hov; reflexivity|reflexivity|].
            rewrite (bin_int E OEq _ (VS R32 58) _ 58 (char_promote sg vb o) eq_refl) by discriminate. cbn [arith]. subst o. unfold cz. destruct sg; reflexivity. }
          rewrite (decided _ _ _ _ _ _ _ _ _ _ _ _ F), den_return. apply HK.
        * rewrite den_skip, den_seq, den_assign.
          destruct (nth_error argv (S (optind g))) as [t2|] eqn:T2; [|apply nth_error_None in T2; lia].
          destruct (strings_nth _ _ _ _ _ Hargs T2) as (p2 & P2 & V2).
          rewrite arg_run with (p := p2) by exact P2. cbn [fst snd].
          rewrite set_arg.
          rewrite add_optind by (cbn; lia). apply Ret. reflexivity.
      + rewrite den_seq, den_assign.
        unfold av. rewrite ev_av. cbn [fst snd]. rewrite set_arg. fold av.
        rewrite add_optind by (cbn; lia). apply Ret. reflexivity.
    - rewrite den_seq, den_assign.
      change (ev ENull (gl av ov n g) s) with (Done (VNull, gl av ov n g) s). cbn [fst snd].
      change (assign E P call (EStar "optarg") VNull (gl av ov n g) s) with (Done (gl av ov n (set_optarg None g)) s). cbv iota.
      pose proof (is_first (gl av ov n (set_optarg None g)) "argument_value" p (t ++ [0]) j 0 ltac:(lia) (f_equal (@Some val) Hav) Hv) as D. change (Z.of_N 0) with 0%Z in D.
      destruct (nth_error (t ++ [0]) j) as [d|] eqn:Hd; [|apply if_undef, D].
      rewrite (decided _ _ _ _ _ _ _ _ _ _ _ _ D). destruct (N.eqb_spec d 0) as [Z0|Z0].
      + rewrite add_optind by (cbn; lia). apply Ret. reflexivity.
      + rewrite den_assign. unfold av. rewrite ev_av. cbn [fst snd]. rewrite set_next. fold av.
        apply Ret. reflexivity.
  Qed.

  (* what the model does from argument_value on *)
  Definition option_from (p : nat * nat) (g : getopt_state) : option (Z * getopt_state) :=
    c <-? char_at argv p;
    let g := set_optopt c g in
    let option_value := search_character sc c options in
    let argument_value := (fst p, S (snd p)) in
    if (c =? 58) || (match option_value with None => true | Some _ => false end)
    then
      d <-? char_at argv argument_value;
      Some (63%Z, if d =? 0 then set_optind (S (optind g)) g else g)
    else
      v <-? option_value;
      o <-? nth_error (options ++ [0]) (S v);
      d <-? char_at argv argument_value;
      if negb (o =? 58) then
        let g := set_optarg None g in
        Some (Z.of_N c, if d =? 0 then set_optind (S (optind g)) g else set_next_option (Some argument_value) g)
      else if negb (d =? 0) then
        Some (Z.of_N c, set_optind (S (optind g)) (set_optarg (Some argument_value) g))
      else
        let g := set_optind (S (optind g)) g in
        if Nat.leb (List.length argv) (optind g) then Some (58%Z, g)
        else Some (Z.of_N c, set_optind (S (optind g)) (set_optarg (Some (optind g, 0%nat)) g)).

  Definition result (R : Z -> getopt_state -> outcome T) (x : option (Z * getopt_state)) : outcome T :=
    match x with Some (z, g) => R z g | None => Undef end.

  Lemma index_found : forall c l i, index_of c l = Some i -> nth_error l i = Some c.
  Proof.
    intros c l. induction l as [|x l IH]; intros i H; [discriminate|]. cbn [index_of] in H. destruct (N.eqb_spec x c) as [->|_]; [injection H as <-; reflexivity|].
    destruct (index_of c l) as [k|]; [|discriminate]. injection H as <-. apply IH. reflexivity.
  Qed.

  Lemma option_run : forall i j t g (K : flow -> locals -> M T) R, answer K R -> nth_error argv i = Some t -> (Z.of_nat (optind g) < 2 ^ 31 - 2)%Z ->
    dn option_part (gl (v_at ps (Some (i, j))) VNull 0 g) K s = result R (option_from (i, j) g).
  Proof.
    intros i j t g K R HK Ht Ho. destruct (strings_nth _ _ _ _ _ Hargs Ht) as (p & Hp & Hv).
    unfold option_part, option_from, char_at. cbn [fst snd]. rewrite Ht. cbn [obind].
    assert (Hav : v_at ps (Some (i, j)) = VChars (ptr_add p (N.of_nat j))) by (cbn [v_at]; rewrite Hp; reflexivity).
    rewrite (search_run _ p (t ++ [0]) j) by assumption.
    destruct (nth_error (t ++ [0]) j) as [c|] eqn:Hc; [|reflexivity]. cbn [obind].
    destruct (view_inv _ _ _ _ W Hv) as (_ & B). rewrite Forall_forall in B. pose proof (B _ (nth_error_In _ _ Hc)) as Bc. change (c < 256) in Bc.
    set (g1 := set_optopt c g). set (x := search_character sc c options). set (n := N.of_nat (List.length options)).
    rewrite den_seq, (next_av p) by exact Hp. rewrite den_seq.
    assert (C : ev (ELogOr (EBin OEq (EOut "optopt") (ECast true R32 (EInt 58))) (EBin OEq OV ENull)) (gl (v_at ps (Some (i, S j))) (v_option x) n g1) s =
                Done (truth ((c =? 58) || match x with None => true | Some _ => false end), gl (v_at ps (Some (i, S j))) (v_option x) n g1) s).
    { apply ev_or.
      - eapply ev_bin with (v := VS R32 (cz sg c)) (w := VS R32 58); [reflexivity|reflexivity|]. rewrite (bin_int E OEq (VS R32 (cz sg c)) (VS R32 58) _ 58 eq_refl eq_refl) by discriminate. cbn [arith].
        change 58%Z with (Z.of_N 58). rewrite cz_eqb by (exact Bc || reflexivity). reflexivity.
      - intros _. destruct x; reflexivity. }
    rewrite (decided _ _ _ _ _ _ _ _ _ _ _ _ C). clear C.
    destruct ((c =? 58) || match x with None => true | Some _ => false end) eqn:Hx.
    - rewrite (unknown_run p i (S j) t) with (R := R) by assumption. destruct (nth_error (t ++ [0]) (S j)); reflexivity.
    - rewrite den_skip. destruct x as [v|] eqn:Xv; [|rewrite orb_true_r in Hx; discriminate]. cbn [obind v_option].
      assert (Nx : forall av g2 (K2 : flow -> locals -> M T), dn (SAssign OV (EAddr (EIndex OV (EInt 1)))) (gl av (VChars (ptr_add q (N.of_nat v))) n g2) K2 s =
                   K2 FNext (gl av (VChars (ptr_add q (N.of_nat (S v)))) n g2) s).
      { intros. replace (ptr_add q (N.of_nat (S v))) with (ptr_add (ptr_add q (N.of_nat v)) 1) by (unfold ptr_add; cbn [fst snd]; f_equal; lia). reflexivity. }
      rewrite den_seq, Nx. clear Nx.
      destruct (Nat.lt_ge_cases v (List.length options)) as [Lv|Lv].
      + assert (Sc : c < 128).
        { pose proof (index_found _ _ _ Xv) as I. rewrite Forall_forall in Hsmall. destruct sc; [rewrite nth_error_app1 in I by exact Lv|]; apply nth_error_In in I; apply Hsmall in I; lia. }
        rewrite (known_run p i (S j) t) with (R := R) by assumption.
        destruct (nth_error (options ++ [0]) (S v)) as [o|]; [|reflexivity]. cbn [obind].
        destruct (nth_error (t ++ [0]) (S j)) as [d|]; [|reflexivity]. cbn [obind].
        destruct (negb (o =? 58)); [destruct (d =? 0); reflexivity|]. destruct (negb (d =? 0)); [reflexivity|].
        cbn [optind set_optind g1 set_optopt optopt]. destruct (List.length argv <=? S (optind g))%nat; reflexivity.
      + assert (Out : nth_error (options ++ [0]) (S v) = None) by (apply nth_error_None; rewrite app_length; cbn; lia).
        rewrite Out. cbn [obind result]. unfold known_part. rewrite den_seq. apply if_undef.
        pose proof (isnt_first (gl (v_at ps (Some (i, S j))) (VChars (ptr_add q (N.of_nat (S v)))) n g1) "option_value" q (options ++ [0]) (S v) 58 ltac:(lia) eq_refl Hopts) as Q.
        rewrite Out in Q. exact Q.
  Qed.

  Definition start_part : stmt :=
    SIf (EBin ONe (EStar "next_option") ENull) (
      SAssign AV (EStar "next_option") ;-
      SAssign (EStar "next_option") ENull)
    (
      SIf (EBin OGe (EOut "optind") (EVar "argument_count")) (
        SReturn (ECast true R32 (EInt (-1))))
      (
        SAssign AV (EIndex (EVar "argument_values") (EOut "optind")) ;-
        SIf (EBin OEq (first AV) (EChar (EInt 0))) (
          SReturn (ECast true R32 (EInt (-1)))) SSkip ;-
        SIf (EBin ONe (first AV) (EChar (EInt 45))) (
          SReturn (ECast true R32 (EInt (-1)))) SSkip ;-
        SAssign AV (EAddr (EIndex AV (EInt 1))) ;-
        SIf (EBin OEq (first AV) (EChar (EInt 45))) (
          SOp OAdd (EOut "optind") (EInt 1) ;-
          SReturn (ECast true R32 (EInt (-1)))) SSkip)).

  Lemma getopt_run : forall g (K : flow -> locals -> M T) R, answer K R -> (Z.of_nat (optind g) < 2 ^ 31 - 2)%Z ->
    match next_option g with Some (i, _) => (i < List.length argv)%nat | None => True end ->
    dn (start_part ;- option_part) (gl VNull VNull 0 g) K s = result R (hmactools_getopt sc argv options g).
  Proof.
    intros g K R HK Ho Hn. rewrite den_seq. unfold start_part, hmactools_getopt.
    assert (Ret : forall av g1, dn (SReturn (ECast true R32 (EInt (-1)))) (gl av VNull 0 g1) K s = R (-1)%Z g1).
    { intros. rewrite den_return. apply HK. }
    destruct (next_option g) as [[i j]|] eqn:Nx.
    - destruct (nth_error argv i) as [t|] eqn:Ht; [|apply nth_error_None in Ht; lia].
      destruct (strings_nth _ _ _ _ _ Hargs Ht) as (p & Hp & Hv).
      assert (Pl : v_at ps (next_option g) = VChars (ptr_add p (N.of_nat j))) by (rewrite Nx; cbn [v_at]; rewrite Hp; reflexivity).
      assert (C : ev (EBin ONe (EStar "next_option") ENull) (gl VNull VNull 0 g) s = Done (truth true, gl VNull VNull 0 g) s).
      { eapply ev_bin; [reflexivity|reflexivity|]. rewrite Pl. reflexivity. }
      rewrite (decided _ _ _ _ _ _ _ _ _ _ _ _ C). clear C. rewrite den_seq, den_assign.
      change (ev (EStar "next_option") (gl VNull VNull 0 g) s) with (Done (v_at ps (next_option g), gl VNull VNull 0 g) s). cbn [fst snd].
      assert (A : assign E P call AV (v_at ps (next_option g)) (gl VNull VNull 0 g) s = Done (gl (v_at ps (next_option g)) VNull 0 g) s).
      { unfold gl at 2. rewrite Pl. unfold gl. rewrite Pl. reflexivity. }
      rewrite A. clear A. rewrite den_assign. change (ev ENull ?l s) with (Done (VNull, l) s). cbn [fst snd].
      change VNull with (v_at ps None) at 1. rewrite set_next. rewrite Nx.
      rewrite (option_run i j t) with (R := R) by assumption. reflexivity.
    - assert (C : ev (EBin ONe (EStar "next_option") ENull) (gl VNull VNull 0 g) s = Done (truth false, gl VNull VNull 0 g) s).
      { eapply ev_bin; [reflexivity|reflexivity|]. rewrite Nx. reflexivity. }
      rewrite (decided _ _ _ _ _ _ _ _ _ _ _ _ C). clear C.
      assert (L : ev (EBin OGe (EOut "optind") (EVar "argument_count")) (gl VNull VNull 0 g) s = Done (truth (Nat.leb (List.length argv) (optind g)), gl VNull VNull 0 g) s).
      { eapply ev_bin; [reflexivity|reflexivity|]. cbn [binary usual promote rank_max arith]. do 2 f_equal. unfold truth.
        destruct (Z.leb_spec (Z.of_nat (List.length argv)) (Z.of_nat (optind g))), (Nat.leb_spec (List.length argv) (optind g)); try reflexivity; lia. }
      rewrite (decided _ _ _ _ _ _ _ _ _ _ _ _ L). clear L.
      destruct (Nat.leb_spec (List.length argv) (optind g)) as [LE|LE]; [apply Ret|].
      destruct (nth_error argv (optind g)) as [t|] eqn:Ht; [|apply nth_error_None in Ht; lia].
      destruct (strings_nth _ _ _ _ _ Hargs Ht) as (p & Hp & Hv).
      rewrite den_seq, den_assign, arg_run with (p := p) by exact Hp. cbn [fst snd].
      assert (A : assign E P call AV (v_at ps (Some (optind g, 0%nat))) (gl VNull VNull 0 g) s = Done (gl (v_at ps (Some (optind g, 0%nat))) VNull 0 g) s).
      { cbn [v_at]. rewrite Hp. reflexivity. }
      rewrite A. clear A. unfold char_at. cbn [fst snd]. rewrite Ht. cbn [obind].
      assert (P0 : v_at ps (Some (optind g, 0%nat)) = VChars (ptr_add p (N.of_nat 0))) by (cbn [v_at]; rewrite Hp; reflexivity).
      assert (P1 : v_at ps (Some (optind g, 1%nat)) = VChars (ptr_add p (N.of_nat 1))) by (cbn [v_at]; rewrite Hp; reflexivity).
      set (l0 := gl (v_at ps (Some (optind g, 0%nat))) VNull 0 g).
      destruct (nth_error (t ++ [0]) 0) as [c0|] eqn:C0.
      2: { apply nth_error_None in C0. rewrite app_length in C0. cbn in C0. lia. }
      cbn [obind].
      pose proof (is_first l0 "argument_value" p (t ++ [0]) 0 0 ltac:(lia) (f_equal (@Some val) P0) Hv) as Q. rewrite C0 in Q. change (Z.of_N 0) with 0%Z in Q.
      rewrite den_seq, (decided _ _ _ _ _ _ _ _ _ _ _ _ Q). clear Q. destruct (c0 =? 0); [apply Ret|]. rewrite den_skip.
      pose proof (isnt_first l0 "argument_value" p (t ++ [0]) 0 45 ltac:(lia) (f_equal (@Some val) P0) Hv) as Q. rewrite C0 in Q. change (Z.of_N 45) with 45%Z in Q.
      rewrite den_seq, (decided _ _ _ _ _ _ _ _ _ _ _ _ Q). clear Q. destruct (negb (c0 =? 45)); [apply Ret|]. rewrite den_skip.
      unfold l0. rewrite den_seq, (next_av p) by exact Hp.
      pose proof (is_first (gl (v_at ps (Some (optind g, 1%nat))) VNull 0 g) "argument_value" p (t ++ [0]) 1 45 ltac:(lia) (f_equal (@Some val) P1) Hv) as Q. change (Z.of_N 45) with 45%Z in Q.
      destruct (nth_error (t ++ [0]) 1) as [c1|] eqn:C1; [|apply if_undef, Q]. cbn [obind].
      rewrite (decided _ _ _ _ _ _ _ _ _ _ _ _ Q). clear Q. destruct (c1 =? 45).
      + rewrite den_seq, add_optind by lia. apply Ret.
      + rewrite den_skip. rewrite (option_run (optind g) 1 t) with (R := R) by assumption. reflexivity.
  Qed.
End Getopt.

Lemma text_getopt : forall E sg vb lp sc fuel ps argv q options g s,
  wf_state s -> strings_at s ps argv -> view q s = Done (options ++ [0]) s -> Forall (fun c => 0 < c < 128) options ->
  N.of_nat (List.length options) < size_mod E -> (Z.of_nat (List.length argv) < 2 ^ 31 - 2)%Z -> (Z.of_nat (optind g) < 2 ^ 31 - 2)%Z ->
  match next_option g with Some (i, _) => (i < List.length argv)%nat | None => True end ->
  run_tool E sg vb lp sc fuel "hmactools_getopt" (VS R32 (Z.of_nat (List.length argv)) :: VPtrs (map VChars ps) :: VChars q :: map VRef (v_globals sg ps g)) s =
  match hmactools_getopt sc argv options g with
  | Some (r, g') => Done (VS R32 r, None :: None :: None :: map Some (v_globals sg ps g')) s
  | None => Undef
  end.
Proof.
  intros E sg vb lp sc fuel ps argv q options g s W Ha Hq Hs Hol Hal Ho Hn.
  eapply enter_tool with (def := text_hmactools_getopt); [destruct vb; reflexivity|reflexivity|reflexivity|reflexivity|].
  intros kl ke Hkl Hke.
  etransitivity; [apply (getopt_run E sg vb lp sc fuel ps argv q options s _ W Ha Hq Hs Hol g ke (fun z g' => Done (VS R32 z, None :: None :: None :: map Some (v_globals sg ps g')) s)); try assumption|].
  - intros z av ov n g1. subst ke kl. destruct av, ov; reflexivity.
  - reflexivity.
Qed.
