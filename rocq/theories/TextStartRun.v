(* The text of main of hmacsum.c up to the options does what Getopt.v says. *)
From Coq Require Import Arith NArith ZArith List Lia Bool String.
From Verif Require Import Words Spec Machine Context Hash ToolStrings SumHandle SumEntry Getopt CText TextAll TextTools ToolCalls TextSum SumCalls TextMain MainCalls TextStart StartCalls.
From Verif Require Import Vocab ToolVocab SumVocab LibProofs SumTheorems MachineFacts ContextFacts PyErrorFacts TextFacts TextLoops TextSteps TextHash TextHmac TextDigest TextSizes TextGetopt TextToolRun
  TextSumSteps TextMainRun OptionFacts.
Import ListNotations.
Open Scope string_scope.
Open Scope list_scope.
Open Scope N_scope.

Lemma same_codes_refl : forall l, same_codes l l = true.
Proof. induction l as [|x l IH]; [reflexivity|]. cbn [same_codes]. rewrite N.eqb_refl. exact IH. Qed.

Lemma view_from : forall p t j s, view p s = Done t s -> (j <= List.length t)%nat -> view (ptr_add p (N.of_nat j)) s = Done (skipn j t) s.
Proof.
  intros [b o] t j s H L. unfold view in *. cbn [ptr_add fst snd] in *. destruct (get_obj s b) as [[l| |]|]; try discriminate.
  destruct (N.leb_spec o (N.of_nat (List.length l))); [|discriminate]. injection H as <-. rewrite skipn_length in L.
  destruct (N.leb_spec (o + N.of_nat j) (N.of_nat (List.length l))); [|lia].
  rewrite skipn_add. f_equal. f_equal. lia.
Qed.

Lemma skip_length : forall A (l : list A) n, (List.length (skipn n l) <= List.length l)%nat.
Proof. intros. rewrite skipn_length. lia. Qed.
Lemma in_skipn : forall (A : Type) (x : A) n l, In x (skipn n l) -> In x l.
Proof. intros A x n l H. rewrite <- (firstn_skipn n l). apply in_or_app. now right. Qed.
Lemma size_nth : forall argv i t, nth_error argv i = Some t -> (S (List.length t) <= size_of argv)%nat.
Proof. intros argv i t H. pose proof (size_skipn _ _ _ H). pose proof (size_skipn_le argv i). lia. Qed.

Section Start.
  Variables (E : env) (O : outside) (files : list N -> input) (sg sc : bool) (fuel : nat) (attach detach locale setup : Z) (texts : ptr).
  Variables (ps : list ptr) (argv : list (list N)) (out : list N) (junk : handle) (k : nat) (pos : N) (s : state).
  Notation P := (main_text sg).
  Notation call := (start_call E O files sg sc fuel attach detach locale setup texts).
  Notation ev := (eval E P call).

  Hypothesis Hlooks : o_looks O = 1%nat.
  Hypothesis Hgood : good_state s.
  Hypothesis Hpoint : point_or_none (o_point O).
  Hypothesis Hfiles : forall name n, in_size (files name) = Some n -> n < 2 ^ 64 /\ (N.to_nat n <= fuel)%nat.
  Hypothesis Hargs : strings_at s ps argv.
  Hypothesis Hzero : Forall (fun t => ~ In 0 t) argv.
  Hypothesis Htexts : view texts s = Done (letters_of_main ++ [0]) s.
  Hypothesis Hsize : (Z.of_nat (size_of argv) < 2 ^ 31 - 2)%Z.
  Hypothesis Hfuel : (size_of argv <= fuel)%nat.
  Hypothesis Hsplit : forall t l, o_split O t = Some l -> (List.length l <= S (List.length t))%nat.

  Definition sl (o : list N) (g : getopt_state) (types size source : val) (r : Z) (vb : N) : locals :=
    [("argc", VS R32 (Z.of_nat (List.length ps))); ("argv", VPtrs (map VChars ps)); ("optind", VRef (VS R32 (Z.of_nat (optind g))));
     ("optarg", VRef (v_at ps (optarg g))); ("optopt", VRef (VS R32 (cz sg (optopt g)))); ("next_option", VRef (v_at ps (next_option g)));
     ("stdout", VRef (VArr R8 o true)); ("error", VErr); ("hmacsum_sum_handle", VRef VNull); ("looks", VRef (VU R64 0))] ++
    combine member_names (map VRef (members junk k pos)) ++
    [("option_digest_types", types); ("option_process_buffer_size", size); ("program", VText "hmacsum"); ("source", source);
     ("option", VS R32 r); ("verbose", VU R8 vb); ("result", VS R32 0)].

  Variable T : Type.
  Notation dn := (@den E P call fuel T).

  Lemma count_int : (Z.of_nat (List.length argv) < 2 ^ 31 - 2)%Z.
  Proof.
    assert (L : forall l : list (list N), (List.length l <= size_of l)%nat).
    { induction l as [|t l IH]; [apply le_n|]. cbn [size_of fold_right List.length]. change (fold_right _ _ l) with (size_of l). lia. }
    specialize (L argv). lia.
  Qed.

  Notation next := (SAssign (EVar "option") (ECall "hmactools_getopt" [(EVar "argc"); (EVar "argv"); (ECall "_SYSTEM_STRING" [(EText "d:hp:vV")]); (EVar "optind"); (EVar "optarg"); (EVar "optopt"); (EVar "next_option")])).

  Lemma literal_run : forall l, ev (ECall "_SYSTEM_STRING" [(EText "d:hp:vV")]) l s = Done (VChars texts, l) s.
  Proof.
    intros l. eapply ev_call with (vs := [VText "d:hp:vV"]) (outs := [None]) (l1 := l) (s1 := s); [reflexivity|reflexivity| |reflexivity].
    change (call "_SYSTEM_STRING" [VText "d:hp:vV"] s) with ((v <- view texts ;; if same_codes v (letters_of_main ++ [0]) then ret (VChars texts, [@None val]) else undef) s).
    unfold bind. rewrite Htexts, same_codes_refl. reflexivity.
  Qed.

  Lemma next_run : forall o g types size source r vb (K : flow -> locals -> M T), placed argv g ->
    dn next (sl o g types size source r vb) K s =
    match hmactools_getopt sc argv letters_of_main g with
    | Some (r', g') => K FNext (sl o g' types size source r' vb) s
    | None => Undef
    end.
  Proof.
    intros o g types size source r vb K B. pose proof count_int as CI. rewrite den_assign, ev_call_eq.
    assert (V : evs E P call [(EVar "argc"); (EVar "argv"); (ECall "_SYSTEM_STRING" [(EText "d:hp:vV")]); (EVar "optind"); (EVar "optarg"); (EVar "optopt"); (EVar "next_option")]
        (sl o g types size source r vb) s =
      Done (VS R32 (Z.of_nat (List.length ps)) :: VPtrs (map VChars ps) :: VChars texts :: map VRef (v_globals sg ps g), sl o g types size source r vb) s).
    { eapply evs_cons; [reflexivity|]. eapply evs_cons; [reflexivity|]. eapply evs_cons; [apply literal_run|]. reflexivity. }
    unfold bind at 1. rewrite V. cbv iota. change (is_external "hmactools_getopt") with false. cbv iota. cbn [fst snd].
    pose proof (run_getopt E sg (o_verbose O) None sc fuel ps argv texts letters_of_main g s Hgood Hargs Htexts) as Q.
    rewrite <- (strings_length _ _ _ Hargs) in Q.
    change (call "hmactools_getopt" (VS R32 (Z.of_nat (List.length ps)) :: VPtrs (map VChars ps) :: VChars texts :: map VRef (v_globals sg ps g)))
      with (run_tool E sg (o_verbose O) None sc fuel "hmactools_getopt" (VS R32 (Z.of_nat (List.length ps)) :: VPtrs (map VChars ps) :: VChars texts :: map VRef (v_globals sg ps g))).
    unfold bind. rewrite Q; clear Q.
    - destruct (hmactools_getopt sc argv letters_of_main g) as [[r' g']|]; [|reflexivity]. reflexivity.
    - repeat constructor.
    - unfold size_mod. destruct (plat64 E); reflexivity.
    - rewrite (strings_length _ _ _ Hargs). exact CI.
    - destruct B as [B _]. lia.
    - intros i j N. destruct B as [_ B]. rewrite N in B. destruct B as (-> & t & Ht & _). rewrite (strings_length _ _ _ Hargs). apply nth_error_Some. congruence.
  Qed.

  (* ------------------------------------------------------------------ behind the options *)

  (* the value of an option as a place in the arguments and as a string *)
  Definition option_is (x : option (nat * nat)) (v : option (list N)) : Prop :=
    match x, v with
    | None, None => True
    | Some p, Some t => string_at argv p = Some t
    | _, _ => False
    end.
  Definition ptr_of (x : option (nat * nat)) : option ptr :=
    match x with Some (i, j) => match nth_error ps i with Some p => Some (ptr_add p (N.of_nat j)) | None => None end | None => None end.
  Lemma ptr_of_chars : forall x, v_at ps x = v_chars (ptr_of x).
  Proof. intros [[i j]|]; [|reflexivity]. cbn [v_at ptr_of]. destruct (nth_error ps i); reflexivity. Qed.
  Lemma option_argument : forall x v, option_is x v ->
    argument (ptr_of x) (option_map (fun t => (t ++ [0], t)) v) s /\ (forall t, v = Some t -> (List.length t < size_of argv)%nat).
  Proof.
    intros [[i j]|] [v|] H; try contradiction; [|split; [exact I|discriminate]]. cbn [option_is] in H. unfold string_at in H. cbn [fst snd] in H.
    destruct (nth_error argv i) as [t|] eqn:A; [|discriminate]. cbn [obind] in H. destruct (Nat.leb_spec j (List.length t)) as [J|J]; [|discriminate]. injection H as <-.
    destruct (strings_nth _ _ _ _ _ Hargs A) as (p & Hp & V). cbn [ptr_of option_map argument]. rewrite Hp. split.
    - split.
      + rewrite (view_from p (t ++ [0]) j s V) by (rewrite app_length; lia). rewrite skipn_app. replace (j - List.length t)%nat with 0%nat by lia. reflexivity.
      + apply until_zero_app. intros Q. apply in_skipn in Q. rewrite Forall_forall in Hzero. exact (Hzero t (nth_error_In _ _ A) Q).
    - intros u Q. injection Q as <-. pose proof (size_nth _ _ _ A). pose proof (skip_length _ t j). lia.
  Qed.

  Definition result (c : command) : M (val * option (list N)) :=
    match c with
    | Exit code => ret (VS R32 code, Some out)
    | Run size types source =>
        z <- hmacsum E (o_split O) (o_verbose O) (o_point O) (files source) (o_signal O)
          (option_map (fun t => (t ++ [0], N.of_nat (List.length t))) size) types ;;
        ret (VS R32 (fst z), Some (out ++ snd z))
    end.

  Lemma behind_run : forall x y size types i name p, option_is x size -> option_is y types -> nth_error argv i = Some name -> nth_error ps i = Some p ->
    call "main_behind" (v_at ps x :: v_at ps y :: VChars p :: VText "hmacsum" :: VRef (VArr R8 out true) :: VErr :: VRef VNull :: VRef (VU R64 0) :: map VRef (members junk k pos)) s =
    (z <- hmacsum E (o_split O) (o_verbose O) (o_point O) (files name) (o_signal O) (option_map (fun t => (t ++ [0], N.of_nat (List.length t))) size) types ;;
     ret (VS R32 (fst z), [None; None; None; None; Some (VArr R8 (out ++ snd z) true)] ++ repeat None 23)) s.
  Proof.
    intros x y size types i name p HX HY A Hp. destruct (strings_nth _ _ _ _ _ Hargs A) as (p' & Hp' & V). assert (p' = p) by congruence. subst p'.
    destruct (option_argument _ _ HX) as (AX & LX). destruct (option_argument _ _ HY) as (AY & LY).
    assert (SM : forall n, (n < size_of argv)%nat -> N.of_nat n + 1 < size_mod E).
    { intros n Hn. unfold size_mod. destruct (plat64 E); lia. }
    pose proof (text_main_good E (with_input O (files name)) sg fuel attach detach (ptr_of x) (ptr_of y) p out junk k pos
      (option_map (fun t => (t ++ [0], t)) size) (option_map (fun t => (t ++ [0], t)) types) s Hlooks Hgood Hpoint) as Q.
    cbn [o_input o_split o_verbose o_point o_signal with_input] in Q. specialize (Q (Hfiles name) AX).
    assert (C : counted (option_map (fun t => (t ++ [0], t)) size) = option_map (fun t => (t ++ [0], N.of_nat (List.length t))) size) by (destruct size; reflexivity).
    assert (D : option_map snd (option_map (fun t => (t ++ [0], t)) types) = types) by (destruct types; reflexivity).
    rewrite C, D in Q.
    change (call "main_behind" (v_at ps x :: v_at ps y :: VChars p :: VText "hmacsum" :: VRef (VArr R8 out true) :: VErr :: VRef VNull :: VRef (VU R64 0) :: map VRef (members junk k pos)) s)
      with ((v <- view p ;; n <- lift (until_zero v) ;;
        r <- run_fun E (main_text sg) (main_call E (with_input O (files n)) sg fuel attach detach) fuel text_main
          (v_at ps x :: v_at ps y :: VChars p :: VText "hmacsum" :: VRef (VArr R8 out true) :: VErr :: VRef VNull :: VRef (VU R64 0) :: map VRef (members junk k pos)) ;;
        t <- lift (on_stdout (snd r)) ;; ret (fst r, [None; None; None; None; Some (VArr R8 t true)] ++ repeat None 23)) s).
    erewrite bind_done by exact V. rewrite until_zero_app by (rewrite Forall_forall in Hzero; exact (Hzero name (nth_error_In _ _ A))).
    erewrite bind_done by reflexivity. rewrite !ptr_of_chars.
    change (run_fun E (main_text sg) (main_call E (with_input O (files name)) sg fuel attach detach) fuel text_main
          (v_chars (ptr_of x) :: v_chars (ptr_of y) :: VChars p :: VText "hmacsum" :: VRef (VArr R8 out true) :: VErr :: VRef VNull :: VRef (VU R64 0) :: map VRef (members junk k pos)))
      with (run_main E (with_input O (files name)) sg fuel attach detach (ptr_of x) (ptr_of y) p out junk k pos).
    specialize (Q ltac:(intros str t R; destruct size as [u|]; [|discriminate]; injection R as <- <-; pose proof (SM _ (LX u eq_refl)); lia) AY).
    specialize (Q ltac:(intros str t R; destruct types as [u|]; [|discriminate]; injection R as <- <-; split; [exact (SM _ (LY u eq_refl))|];
      intros segments R; pose proof (Hsplit _ _ R); pose proof (LY u eq_refl); lia)).
    unfold bind in *. destruct (run_main _ _ _ _ _ _ _ _ _ _ _ _ _ s) as [[v outs] s1|], (hmacsum _ _ _ _ _ _ _ _ s) as [[z t] s2|]; try discriminate; [|reflexivity].
    unfold ret in Q. cbn [fst snd] in *. injection Q as -> Q ->. rewrite Q. reflexivity.
  Qed.

  (* ------------------------------------------------------------------ the options *)

  Definition loop_body : stmt := match drop 3 (f_body text_main_start) with SSeq (SFor _ _ _ b) _ => b | _ => SSkip end.
  Definition end_part : stmt := drop 4 (f_body text_main_start).
  Notation asks := (EBin ONe (EVar "option") (ECast true R32 (EInt (-1)))).
  Lemma options_part : drop 3 (f_body text_main_start) = (SFor next asks next loop_body ;- end_part).
  Proof. reflexivity. Qed.
End Start.

Section Loop.
  Variables (E : env) (O : outside) (files : list N -> input) (sg sc : bool) (fuel : nat) (attach detach locale setup : Z) (texts : ptr).
  Variables (ps : list ptr) (argv : list (list N)) (out : list N) (junk : handle) (k : nat) (pos : N) (s : state).
  Notation P := (main_text sg).
  Notation call := (start_call E O files sg sc fuel attach detach locale setup texts).
  Notation ev := (eval E P call).
  Notation T := (val * option (list N))%type.
  Notation dn := (@den E P call fuel T).
  Notation L := (sl sg ps junk k pos).
  Notation next := (SAssign (EVar "option") (ECall "hmactools_getopt" [(EVar "argc"); (EVar "argv"); (ECall "_SYSTEM_STRING" [(EText "d:hp:vV")]); (EVar "optind"); (EVar "optarg"); (EVar "optopt"); (EVar "next_option")])).
  Notation asks := (EBin ONe (EVar "option") (ECast true R32 (EInt (-1)))).

  Hypothesis Hlooks : o_looks O = 1%nat.
  Hypothesis Hgood : good_state s.
  Hypothesis Hpoint : point_or_none (o_point O).
  Hypothesis Hfiles : forall name n, in_size (files name) = Some n -> n < 2 ^ 64 /\ (N.to_nat n <= fuel)%nat.
  Hypothesis Hargs : strings_at s ps argv.
  Hypothesis Hzero : Forall (fun t => ~ In 0 t) argv.
  Hypothesis Htexts : view texts s = Done (letters_of_main ++ [0]) s.
  Hypothesis Hsize : (Z.of_nat (size_of argv) < 2 ^ 31 - 2)%Z.
  Hypothesis Hfuel : (size_of argv <= fuel)%nat.
  Hypothesis Hsplit : forall t l, o_split O t = Some l -> (List.length l <= S (List.length t))%nat.

  Variable ke : flow -> locals -> M T.
  Hypothesis Hret : forall z o g types size source r vb s', ke (FReturn (VS R32 z)) (L o g types size source r vb) s' = Done (VS R32 z, Some o) s'.
  Hypothesis Herr : forall o g types size source r vb s', ke FError (L o g types size source r vb) s' = Done (VS R32 1, Some o) s'.

  Notation R := (result E O files out).

  Lemma index_run : forall o g types size source r vb i z e, ev e (L o g types size source r vb) s = Done (VS R32 z, L o g types size source r vb) s -> z = Z.of_nat i ->
    ev (EIndex (EVar "argv") e) (L o g types size source r vb) s =
    match nth_error ps i with Some p => Done (VChars p, L o g types size source r vb) s | None => Undef end.
  Proof.
    intros o g types size source r vb i z e H ->. cbn [eval].
    change (lget (L o g types size source r vb) "argv") with (Some (VPtrs (map VChars ps))). unfold bind at 1. unfold ret at 1. cbn [fst snd]. unfold bind at 1. rewrite H. cbn [fst snd amount].
    destruct (Z.leb_spec 0 (Z.of_nat i)); [|lia]. unfold bind. cbn [lift index]. unfold ret. cbn [load_at].
    replace (Z.to_N (Z.of_nat i)) with (N.of_nat i) by lia. rewrite Nat2N.id, hd_skipn, nth_error_map.
    destruct (nth_error ps i); reflexivity.
  Qed.

  Lemma end_run : forall g x y size types r vb, option_is argv x size -> option_is argv y types ->
    dn end_part (L out g (v_at ps y) (v_at ps x) VNull r vb) ke s =
    match (if Nat.eqb (optind g) (List.length argv) then Some (Exit 1) else source <-? nth_error argv (optind g); Some (Run size types source)) with
    | Some c => R c s
    | None => Undef
    end.
  Proof.
    intros g x y size types r vb HX HY. unfold end_part. cbn [f_body text_main_start drop]. rewrite den_seq, den_if.
    assert (C : ev (EBin OEq (EOut "optind") (EVar "argc")) (L out g (v_at ps y) (v_at ps x) VNull r vb) s =
      Done (truth (Z.of_nat (optind g) =? Z.of_nat (List.length ps))%Z, L out g (v_at ps y) (v_at ps x) VNull r vb) s) by reflexivity.
    rewrite C. cbn [fst snd]. rewrite test_truth. rewrite (strings_length _ _ _ Hargs).
    replace (Z.of_nat (optind g) =? Z.of_nat (List.length argv))%Z with (Nat.eqb (optind g) (List.length argv))
      by (destruct (Nat.eqb_spec (optind g) (List.length argv)); [symmetry; apply Z.eqb_eq; lia|symmetry; apply Z.eqb_neq; lia]).
    destruct (Nat.eqb (optind g) (List.length argv)).
    - exact (Herr _ _ _ _ _ _ _ s).
    - rewrite den_skip, den_seq, den_assign. rewrite (index_run _ _ _ _ _ _ _ (optind g) (Z.of_nat (optind g)) (EOut "optind")) by reflexivity.
      destruct (nth_error argv (optind g)) as [name|] eqn:A.
      + destruct (strings_nth _ _ _ _ _ Hargs A) as (p & Hp & _). rewrite Hp. cbn [fst snd obind].
        change (assign E P call (EVar "source") (VChars p) (L out g (v_at ps y) (v_at ps x) VNull r vb) s) with (Done (L out g (v_at ps y) (v_at ps x) (VChars p) r vb) s).
        cbv iota. rewrite den_return, ev_call_eq.
        lazymatch goal with |- context [evs _ _ _ ?es _] =>
          assert (V : evs E P call es (L out g (v_at ps y) (v_at ps x) (VChars p) r vb) s =
            Done (v_at ps x :: v_at ps y :: VChars p :: VText "hmacsum" :: VRef (VArr R8 out true) :: VErr :: VRef VNull :: VRef (VU R64 0) :: map VRef (members junk k pos), L out g (v_at ps y) (v_at ps x) (VChars p) r vb) s)
        end.
        { unfold sl. rewrite !(ptr_of_chars ps). destruct (ptr_of ps x), (ptr_of ps y); reflexivity. }
        unfold bind at 1. rewrite V. clear V. cbv iota. change (is_external "main_behind") with false. cbv iota. cbn [fst snd].
        unfold bind. erewrite behind_run by eassumption. cbn [result]. unfold bind.
        destruct (hmacsum _ _ _ _ _ _ _ _ s) as [[z t] s1|]; [|reflexivity]. exact (Hret z _ _ _ _ _ _ _ s1).
      + destruct (nth_error ps (optind g)) eqn:Q; [|reflexivity]. exfalso. apply nth_error_None in A. rewrite <- (strings_length _ _ _ Hargs) in A. apply nth_error_None in A. congruence.
  Qed.

  Definition after_loop (fl : flow) (l : locals) : M T := match fl with FNext => dn end_part l ke | _ => ke fl l end.

  Lemma v_at_null : forall x, is_null (v_at ps x) <> None.
  Proof. intros [[i j]|]; [|discriminate]. cbn [v_at]. destruct (nth_error ps i); discriminate. Qed.

  (* the switch for each letter *)
  Lemma body_types : forall g x y vb (K : flow -> locals -> M T), dn loop_body (L out g (v_at ps y) (v_at ps x) VNull 100 vb) K s =
    K FNext (L out g (v_at ps (optarg g)) (v_at ps x) VNull 100 vb) s.
  Proof. intros g x y vb K. unfold sl. rewrite !(ptr_of_chars ps). destruct (ptr_of ps y), (ptr_of ps (optarg g)); reflexivity. Qed.
  Lemma body_size : forall g x y vb (K : flow -> locals -> M T), dn loop_body (L out g (v_at ps y) (v_at ps x) VNull 112 vb) K s =
    K FNext (L out g (v_at ps y) (v_at ps (optarg g)) VNull 112 vb) s.
  Proof. intros g x y vb K. unfold sl. rewrite !(ptr_of_chars ps). destruct (ptr_of ps x), (ptr_of ps (optarg g)); reflexivity. Qed.
  Lemma body_verbose : forall g x y vb (K : flow -> locals -> M T), dn loop_body (L out g (v_at ps y) (v_at ps x) VNull 118 vb) K s =
    K FNext (L out g (v_at ps y) (v_at ps x) VNull 118 1) s.
  Proof. reflexivity. Qed.
  Lemma body_help : forall g x y r vb (K : flow -> locals -> M T), r = 104%Z \/ r = 86%Z -> dn loop_body (L out g (v_at ps y) (v_at ps x) VNull r vb) K s =
    K (FReturn (VS R32 0)) (L out g (v_at ps y) (v_at ps x) VNull r vb) s.
  Proof. intros g x y r vb K [-> | ->]; reflexivity. Qed.
  Lemma body_other : forall g x y r vb (K : flow -> locals -> M T), (1 <= optind g <= Nat.max 1 (List.length argv))%nat ->
    existsb (Z.eqb r) [100; 104; 112; 118; 86]%Z = false ->
    dn loop_body (L out g (v_at ps y) (v_at ps x) VNull r vb) K s =
    match nth_error argv (optind g - 1) with Some _ => K FError (L out g (v_at ps y) (v_at ps x) VNull r vb) s | None => Undef end.
  Proof.
    intros g x y r vb K B H. unfold loop_body. cbn [f_body text_main_start drop]. rewrite den_if.
    assert (C : ev (ELogOr (EBin OEq (EVar "option") (EInt 100)) (ELogOr (EBin OEq (EVar "option") (EInt 104)) (ELogOr (EBin OEq (EVar "option") (EInt 112)) (ELogOr (EBin OEq (EVar "option") (EInt 118)) (EBin OEq (EVar "option") (EInt 86))))))
      (L out g (v_at ps y) (v_at ps x) VNull r vb) s = Done (truth false, L out g (v_at ps y) (v_at ps x) VNull r vb) s).
    { cbn [existsb] in H. apply orb_false_elim in H. destruct H as [H1 H]. apply orb_false_elim in H. destruct H as [H2 H]. apply orb_false_elim in H. destruct H as [H3 H].
      apply orb_false_elim in H. destruct H as [H4 H]. apply orb_false_elim in H. destruct H as [H5 _].
      assert (Q : forall c, (r =? c)%Z = false -> ev (EBin OEq (EVar "option") (EInt c)) (L out g (v_at ps y) (v_at ps x) VNull r vb) s = Done (truth false, L out g (v_at ps y) (v_at ps x) VNull r vb) s).
      { intros c Hc. change (ev (EBin OEq (EVar "option") (EInt c)) (L out g (v_at ps y) (v_at ps x) VNull r vb) s) with (Done (truth (r =? c)%Z, L out g (v_at ps y) (v_at ps x) VNull r vb) s). now rewrite Hc. }
      assert (W : forall a b, ev a (L out g (v_at ps y) (v_at ps x) VNull r vb) s = Done (truth false, L out g (v_at ps y) (v_at ps x) VNull r vb) s ->
        ev b (L out g (v_at ps y) (v_at ps x) VNull r vb) s = Done (truth false, L out g (v_at ps y) (v_at ps x) VNull r vb) s ->
        ev (ELogOr a b) (L out g (v_at ps y) (v_at ps x) VNull r vb) s = Done (truth false, L out g (v_at ps y) (v_at ps x) VNull r vb) s).
      { intros a b Ha Hb. cbn [eval]. unfold bind. rewrite Ha. cbn [fst snd]. rewrite test_truth. cbn [lift]. unfold ret. rewrite Hb. reflexivity. }
      repeat apply W; now apply Q. }
    rewrite C. cbn [fst snd]. rewrite test_truth. rewrite den_seq, den_expr, ev_call_eq.
    assert (CI : forall l : list (list N), (List.length l <= size_of l)%nat).
    { clear. induction l as [|t l IH]; [apply le_n|]. cbn [size_of fold_right List.length]. change (fold_right _ _ l) with (size_of l). lia. }
    specialize (CI argv).
    assert (Z1 : ev (EBin OSub (EOut "optind") (EInt 1)) (L out g (v_at ps y) (v_at ps x) VNull r vb) s =
      Done (VS R32 (Z.of_nat (optind g) - 1)%Z, L out g (v_at ps y) (v_at ps x) VNull r vb) s).
    { eapply ev_bin; [reflexivity|reflexivity|]. cbn [binary usual promote rank_max arith]. rewrite in_range_int by lia. reflexivity. }
    assert (Z2 := index_run out g (v_at ps y) (v_at ps x) VNull r vb (optind g - 1) _ _ Z1 ltac:(lia)).
    assert (Z3 : evs E P call [(EName "stderr"); (EName "text"); (EIndex (EVar "argv") (EBin OSub (EOut "optind") (EInt 1)))] (L out g (v_at ps y) (v_at ps x) VNull r vb) s =
      match nth_error ps (optind g - 1) with Some p => Done ([VName "stderr"; VName "text"; VChars p], L out g (v_at ps y) (v_at ps x) VNull r vb) s | None => Undef end).
    { change (evs E P call [(EName "stderr"); (EName "text"); (EIndex (EVar "argv") (EBin OSub (EOut "optind") (EInt 1)))] (L out g (v_at ps y) (v_at ps x) VNull r vb) s) with
        ((q <- (q <- (v <- ev (EIndex (EVar "argv") (EBin OSub (EOut "optind") (EInt 1))) (L out g (v_at ps y) (v_at ps x) VNull r vb) ;; q <- evs E P call [] (snd v) ;; ret (fst v :: fst q, snd q)) ;;
          ret (VName "text" :: fst q, snd q)) ;; ret (VName "stderr" :: fst q, snd q)) s).
      unfold bind. rewrite Z2. destruct (nth_error ps (optind g - 1)); reflexivity. }
    unfold bind at 1. rewrite Z3.
    destruct (nth_error argv (optind g - 1)) as [u|] eqn:A.
    - destruct (strings_nth _ _ _ _ _ Hargs A) as (p & Hp & V). rewrite Hp. cbn [fst snd]. change (is_external "fprintf") with false. cbv iota.
      assert (F : call "fprintf" [VName "stderr"; VName "text"; VChars p] s = Done (VS R32 0, [None; None; None]) s).
      { change (call "fprintf" [VName "stderr"; VName "text"; VChars p] s) with ((v <- view p ;; t <- lift (until_zero v) ;; ret (VS R32 0%Z, [@None val; None; None])) s).
        unfold bind. rewrite V, until_zero_app by (rewrite Forall_forall in Hzero; exact (Hzero u (nth_error_In _ _ A))). reflexivity. }
      unfold bind. rewrite F. reflexivity.
    - destruct (nth_error ps (optind g - 1)) eqn:Q; [|reflexivity]. exfalso. apply nth_error_None in A. rewrite <- (strings_length _ _ _ Hargs) in A. apply nth_error_None in A. congruence.
  Qed.

  Lemma loop_run : forall n m g r g' x y size types vb, placed argv g -> hmactools_getopt sc argv letters_of_main g = Some (r, g') ->
    (remaining argv g <= n)%nat -> (remaining argv g <= m)%nat -> option_is argv x size -> option_is argv y types ->
    @dloop E P call fuel T n asks (loop_body ;- next) (L out g' (v_at ps y) (v_at ps x) VNull r vb) after_loop s =
    match turn sc argv m r g' size types with Some c => R c s | None => Undef end.
  Proof.
    induction n as [|n IH]; intros m g r g' x y size types vb B G Hn Hm HX HY.
    - destruct (getopt_step sc argv _ _ _ _ B G) as (_ & Q & _). destruct (Z.eq_dec r (-1)) as [->|NR]; [|specialize (Q NR); lia].
      rewrite dloop_end by reflexivity. cbn [after_loop]. exact (end_run _ _ _ _ _ _ _ HX HY).
    - destruct (getopt_step sc argv _ _ _ _ B G) as (B1 & Q & N). destruct (Z.eq_dec r (-1)) as [->|NR].
      { rewrite dloop_end by reflexivity. cbn [after_loop]. exact (end_run _ _ _ _ _ _ _ HX HY). }
      assert (A : ev asks (L out g' (v_at ps y) (v_at ps x) VNull r vb) s = Done (truth true, L out g' (v_at ps y) (v_at ps x) VNull r vb) s).
      { change (ev asks (L out g' (v_at ps y) (v_at ps x) VNull r vb) s) with (Done (truth (negb (r =? -1)%Z), L out g' (v_at ps y) (v_at ps x) VNull r vb) s).
        apply Z.eqb_neq in NR. now rewrite NR. }
      rewrite dloop_step by exact A. rewrite den_seq.
      unfold turn. replace (r =? -1)%Z with false by (symmetry; now apply Z.eqb_neq). specialize (N NR).
      (* another turn *)
      assert (Again : forall size' types' x' y' vb', (remaining argv g' < remaining argv g)%nat -> placed argv g' -> option_is argv x' size' -> option_is argv y' types' ->
        dn next (L out g' (v_at ps y') (v_at ps x') VNull r vb')
          (fun f l' => match f with FNext => @dloop E P call fuel T n asks (loop_body ;- next) l' after_loop | FBreak => after_loop FNext l' | _ => after_loop f l' end) s =
        match main_options m sc argv g' size' types' with Some c => R c s | None => Undef end).
      { intros size' types' x' y' vb' Hr Hp HX' HY'. destruct m as [|m]; [lia|]. rewrite options_turn.
        rewrite (next_run E O files sg sc fuel attach detach locale setup texts ps argv junk k pos s) by assumption.
        destruct (hmactools_getopt sc argv letters_of_main g') as [[r2 g2]|] eqn:G2; [|reflexivity].
        apply (IH m g' r2 g2 x' y' size' types' vb'); try assumption; lia. }
      destruct (Z.eqb_spec r 100) as [->|N1].
      { destruct (getopt_value _ _ _ _ _ B G (or_introl eq_refl)) as (i & j & v & V1 & V2). rewrite V1. cbn [obind]. rewrite V2. cbn [obind].
        destruct (N ltac:(discriminate) ltac:(discriminate)) as [P1 P2]. rewrite body_types. rewrite V1. apply Again; try assumption. }
      destruct (Z.eqb_spec r 104) as [->|N2]. { rewrite body_help by auto. exact (Hret _ _ _ _ _ _ _ _ s). }
      destruct (Z.eqb_spec r 112) as [->|N3].
      { destruct (getopt_value _ _ _ _ _ B G (or_intror eq_refl)) as (i & j & v & V1 & V2). rewrite V1. cbn [obind]. rewrite V2. cbn [obind].
        destruct (N ltac:(discriminate) ltac:(discriminate)) as [P1 P2]. rewrite body_size. rewrite V1. apply Again; try assumption. }
      destruct (Z.eqb_spec r 118) as [->|N4].
      { destruct (N ltac:(discriminate) ltac:(discriminate)) as [P1 P2]. rewrite body_verbose. apply Again; try assumption. }
      destruct (Z.eqb_spec r 86) as [->|N5]. { rewrite body_help by auto. exact (Hret _ _ _ _ _ _ _ _ s). }
      rewrite body_other; [|exact B1|].
      2:{ cbn [existsb]. rewrite !(proj2 (Z.eqb_neq _ _)) by assumption. reflexivity. }
      destruct (nth_error argv (optind g' - 1)); [|reflexivity]. exact (Herr _ _ _ _ _ _ _ s).
  Qed.

End Loop.

Lemma text_of_program : forall E O files sg sc fuel attach detach locale setup texts ps argv out junk k pos s,
  o_looks O = 1%nat -> good_state s -> point_or_none (o_point O) ->
  (forall name n, in_size (files name) = Some n -> n < 2 ^ 64 /\ (N.to_nat n <= fuel)%nat) ->
  strings_at s ps argv -> Forall (fun t => ~ In 0 t) argv -> view texts s = Done (letters_of_main ++ [0]) s ->
  (Z.of_nat (size_of argv) < 2 ^ 31 - 2)%Z -> (size_of argv <= fuel)%nat ->
  (forall t l, o_split O t = Some l -> (List.length l <= S (List.length t))%nat) ->
  (z <- run_program E O files sg sc fuel attach detach locale setup texts ps out junk k pos ;; ret (fst z, printed_by (snd z))) s =
  if ((locale =? 1) && (setup =? 1))%Z then
    (z <- hmacsum_main E sc (o_split O) (o_verbose O) (o_point O) files (o_signal O) argv ;; ret (VS R32 (fst z), Some (out ++ snd z))) s
  else Done (VS R32 1, Some out) s.
Proof.
  intros E O files sg sc fuel attach detach locale setup texts ps argv out junk k pos s HL HG HP HF HA HZ HT HS HU HD.
  set (call := start_call E O files sg sc fuel attach detach locale setup texts). set (L0 := sl sg ps junk k pos out getopt_start VNull VNull VNull 0 0).
  transitivity ((z <- (fun s => @den E (main_text sg) call fuel _ (f_body text_main_start) L0
            (fun fl l => match fl with
                         | FReturn v => leave E text_main_start fl l
                         | FBreak => undef
                         | _ => @den E (main_text sg) call fuel _ (f_error text_main_start) l (leave E text_main_start)
                         end) s) ;; ret (fst z, printed_by (snd z))) s).
  { unfold bind at 1. unfold run_program. rewrite run_fun_eq. reflexivity. }
  rewrite den_then. set (ke := fun fl l => _).
  assert (Hret : forall z o g types size source r vb s', ke (FReturn (VS R32 z)) (sl sg ps junk k pos o g types size source r vb) s' = Done (VS R32 z, Some o) s').
  { intros z o g types size source r vb s'. unfold ke, bind. erewrite leave_plain; [|reflexivity|reflexivity]. reflexivity. }
  assert (Herr : forall o g types size source r vb s', ke FError (sl sg ps junk k pos o g types size source r vb) s' = Done (VS R32 1, Some o) s').
  { intros o g types size source r vb s'. unfold ke. rewrite den_then. unfold text_main_start at 1. cbn [f_error]. rewrite den_seq.
    rewrite star_given with (v := VNull) (b := true) by reflexivity. rewrite den_skip, den_return_int. apply Hret. }
  clearbody ke.
  change (f_body text_main_start) with (
    SIf (EBin ONe (ECall "libclocale_initialize" [(EName "text"); (EVar "error")]) (EInt 1)) (
      SExpr (ECall "fprintf" [(EName "stderr"); (EName "text")]) ;-
      SGoto) SSkip ;-
    SIf (EBin ONe (ECall "hmactools_output_initialize" [(EName "_IONBF"); (EVar "error")]) (EInt 1)) (
      SExpr (ECall "fprintf" [(EName "stderr"); (EName "text")]) ;-
      SGoto) SSkip ;-
    SExpr (ECall "hmactools_output_version_fprint" [(EVar "stdout"); (EVar "program")]) ;-
    drop 3 (f_body text_main_start)).
  rewrite den_seq. erewrite checked_done with (l1 := L0) (z := locale) (s1 := s); [|reflexivity|reflexivity|reflexivity|reflexivity].
  destruct (locale =? 1)%Z; cbn [negb andb]; [|exact (Herr _ _ _ _ _ _ _ s)].
  rewrite den_skip, den_seq. erewrite checked_done with (l1 := L0) (z := setup) (s1 := s); [|reflexivity|reflexivity|reflexivity|reflexivity].
  destruct (setup =? 1)%Z; cbn [negb]; [|exact (Herr _ _ _ _ _ _ _ s)].
  rewrite den_skip, den_seq.
  match goal with |- den (SExpr _) ?l ?K s = _ => change (den (SExpr (ECall "hmactools_output_version_fprint" [EVar "stdout"; EVar "program"])) l K s) with (K FNext l s) end. cbv beta iota.
  rewrite options_part, den_seq, den_for. unfold L0, call.
  rewrite (next_run E O files sg sc fuel attach detach locale setup texts ps argv junk k pos s) by (try assumption; apply placed_start).
  unfold hmacsum_main. rewrite bind_assoc.
  assert (Q : forall c, (z <- match c with
    | Exit code => ret (code, [])
    | Run size types source => hmacsum E (o_split O) (o_verbose O) (o_point O) (files source) (o_signal O)
        (option_map (fun t => (t ++ [0], N.of_nat (List.length t))) size) types
    end ;; ret (VS R32 (fst z), Some (out ++ snd z))) s = result E O files out c s).
  { intros [code|size types source]; [|reflexivity]. cbn [result]. rewrite bind_ret. cbn [fst snd]. now rewrite app_nil_r. }
  rewrite options_turn. destruct (hmactools_getopt sc argv letters_of_main getopt_start) as [[r g]|] eqn:G; [|reflexivity].
  etransitivity; [eapply (loop_run E O files sg sc fuel attach detach locale setup texts ps argv out junk k pos s) with (x := None) (y := None) (size := None) (types := None) (m := size_of argv) (g := getopt_start)|].
  all: try eassumption; try exact I. { apply placed_start. } { pose proof (remaining_start argv). lia. } { apply remaining_start. }
  unfold bind at 1. destruct (turn sc argv (size_of argv) r g None None) as [c|]; [|reflexivity]. symmetry. apply Q.
Qed.

(* ------------------------------------------------------------------ from the arguments to what is printed *)
From Verif Require Import GetoptVocab GetoptFacts.

Lemma text_from_arguments : forall E O files sg sc fuel attach detach texts ps program args out junk k pos s,
  o_looks O = 1%nat -> good_state s -> point_or_none (o_point O) -> (forall name, input_ok (files name)) ->
  (forall name n, in_size (files name) = Some n -> (N.to_nat n <= fuel)%nat) ->
  strings_at s ps (program :: args) -> Forall GetoptVocab.argument (program :: args) -> ~ In [45] args -> view texts s = Done (hmacsum_options ++ [0]) s ->
  (Z.of_nat (size_of (program :: args)) < 2 ^ 31 - 2)%Z -> (size_of (program :: args) <= fuel)%nat ->
  (forall t l, o_split O t = Some l -> (List.length l <= S (List.length t))%nat) ->
  exists items e rest code outs printed s', parsed hmacsum_options [] args items e rest /\
  run_program E O files sg sc fuel attach detach 1 1 texts ps out junk k pos s = Done (VS R32 code, outs) s' /\
  printed_by outs = Some (out ++ printed) /\
  ((informs items /\ code = 0%Z /\ printed = [] /\ s' = s) \/
   (~ informs items /\ (e <> Operands \/ rest = []) /\ code = 1%Z /\ printed = [] /\ s' = s) \/
   (~ informs items /\ e = Operands /\ exists source more size types, rest = source :: more /\ last_value 112 items size /\ last_value 100 items types /\
    good_state s' /\ unchanged s s' /\
    ((exists selected n k, (forall a, selected a = true <-> asked (o_split O) types a) /\ in_size (files source) = Some n /\
        n <= N.of_nat (List.length (in_data (files source))) /\ (k <= N.to_nat n)%nat /\ arrived (o_signal O) (1 + k) = false /\
        let text := digest_lines selected (firstn (N.to_nat n) (in_data (files source))) in
        (code = 0%Z /\ printed = text /\ arrived (o_signal O) (2 + k) = false) \/
        (code = 1%Z /\ printed = text /\ (in_close (files source) = false \/ in_free (files source) = false)) \/
        (code = 1%Z /\ printed = text ++ aborted_text /\ arrived (o_signal O) (2 + k) = true)) \/
     (code = 1%Z /\ (printed = [] \/ printed = aborted_text /\ o_signal O <> None) /\
      refusal E (o_split O) (o_point O) (files source) (o_signal O) (option_map (fun t => (t ++ [0], N.of_nat (List.length t))) size) types s s')))).
Proof.
  intros E O files sg sc fuel attach detach texts ps program args out junk k pos s HL HG HP HI HF HA HC HD HT HS HU HO.
  assert (HZ : Forall (fun t => ~ In 0 t) (program :: args)).
  { eapply Forall_impl; [|exact HC]. intros t Ht Q. unfold GetoptVocab.argument in Ht. rewrite Forall_forall in Ht. specialize (Ht 0 Q). lia. }
  assert (HF' : forall name n, in_size (files name) = Some n -> n < 2 ^ 64 /\ (N.to_nat n <= fuel)%nat).
  { intros name n Q. split; [exact (proj2 (HI name) n Q)|exact (HF name n Q)]. }
  pose proof (text_of_program E O files sg sc fuel attach detach 1 1 texts ps (program :: args) out junk k pos s HL HG HP HF' HA HZ HT HS HU HO) as Q.
  destruct (program_from_arguments E sc (o_split O) (o_verbose O) (o_point O) files (o_signal O) program args s HG HI HP (Forall_inv_tail HC) HD)
    as (items & e & rest & code & printed & s' & P1 & P2 & P3).
  cbn [Z.eqb andb Pos.eqb] in Q. unfold bind in Q. rewrite P2 in Q. unfold ret in Q. cbn [fst snd] in Q.
  destruct (run_program _ _ _ _ _ _ _ _ _ _ _ _ _ _ _ _ s) as [[v outs] s2|]; [|discriminate]. injection Q as Q1 Q2 Q3. cbn [fst snd] in *. subst v s2.
  exists items, e, rest, code, outs, printed, s'. split; [exact P1|]. split; [reflexivity|]. split; [exact Q2|].
  destruct P3 as [P3|[P3|(P3 & P4 & source & more & size & types & P5 & P6 & P7 & P8 & P9)]]; [left; exact P3|right; left; exact P3|]. right. right.
  split; [exact P3|]. split; [exact P4|]. exists source, more, size, types. split; [exact P5|]. split; [exact P6|]. split; [exact P7|].
  destruct (program_result E (o_split O) (o_verbose O) (o_point O) (files source) (o_signal O) _ types s HG (HI source) P9 HP)
    as (code1 & printed1 & s1 & H & G' & U & X & L).
  rewrite P8 in H. injection H as <- <- <-. split; [exact G'|]. split; [exact U|].
  destruct X as [(sel & n & j & S1 & S2 & S3 & S4 & S5 & _ & X)|X]; [left; exists sel, n, j; auto 10|right; exact X].
Qed.

(* the first argument is a dash alone *)
Lemma text_from_dash : forall E O files sg sc fuel attach detach texts ps program args out junk k pos s,
  o_looks O = 1%nat -> good_state s -> point_or_none (o_point O) ->
  (forall name n, in_size (files name) = Some n -> n < 2 ^ 64 /\ (N.to_nat n <= fuel)%nat) ->
  strings_at s ps (program :: [45] :: args) -> Forall GetoptVocab.argument (program :: [45] :: args) -> view texts s = Done (hmacsum_options ++ [0]) s ->
  (Z.of_nat (size_of (program :: [45%N] :: args)) < 2 ^ 31 - 2)%Z -> (size_of (program :: [45%N] :: args) <= fuel)%nat ->
  (forall t l, o_split O t = Some l -> (List.length l <= S (List.length t))%nat) ->
  run_program E O files sg sc fuel attach detach 1 1 texts ps out junk k pos s = Undef.
Proof.
  intros E O files sg sc fuel attach detach texts ps program args out junk k pos s HL HG HP HF HA HC HT HS HU HO.
  assert (HZ : Forall (fun t => ~ In 0 t) (program :: [45] :: args)).
  { eapply Forall_impl; [|exact HC]. intros t Ht Q. unfold GetoptVocab.argument in Ht. rewrite Forall_forall in Ht. specialize (Ht 0 Q). lia. }
  pose proof (text_of_program E O files sg sc fuel attach detach 1 1 texts ps (program :: [45] :: args) out junk k pos s HL HG HP HF HA HZ HT HS HU HO) as Q.
  cbn [Z.eqb andb Pos.eqb] in Q. unfold hmacsum_main in Q. rewrite options_turn in Q.
  assert (D : hmactools_getopt sc (program :: [45] :: args) letters_of_main getopt_start = None).
  { apply dash_undefined; [repeat constructor; discriminate|reflexivity|reflexivity]. }
  rewrite D in Q. unfold bind in Q. cbn [lift] in Q. unfold undef in Q.
  destruct (run_program _ _ _ _ _ _ _ _ _ _ _ _ _ _ _ _ s) as [[v outs] s2|]; [discriminate|reflexivity].
Qed.
