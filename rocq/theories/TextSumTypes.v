(* The text of sum_handle_set_digest_types does what SumHandle.v says. *)
From Coq Require Import Arith NArith ZArith List Lia Bool String Ascii.
From Verif Require Import Words Spec Machine Context Hash ToolStrings SumHandle SumEntry CText TextAll TextTools ToolCalls TextSum SumCalls.
From Verif Require Import Vocab MachineFacts HashFacts TextFacts TextContext TextSteps TextLoops TextHash TextHmac TextDigest TextSizes TextSumSteps TextSumSmall TextSumHash
  TextSumInit TextUpdate.
Import ListNotations.
Open Scope string_scope.
Open Scope list_scope.
Open Scope N_scope.

Lemma codes_literal : forall t, codes t = literal t.
Proof. induction t as [|c t IH]; [reflexivity|]. cbn [codes]. rewrite IH. reflexivity. Qed.
Lemma segment_back : forall x, segment_codes (map (VU R8) x) = Some x.
Proof. induction x as [|c x IH]; [reflexivity|]. cbn [map segment_codes]. rewrite IH. reflexivity. Qed.

(* the names of one size *)
Definition entry : Type := (N * string * nat * algid)%type.
Definition sized (n : N) : list entry := filter (fun x => fst (fst (fst x)) =? n) names.
Fixpoint first_match (l : list entry) (x : list N) : option (option algid) :=
  match l with
  | [] => Some None
  | (_, name, n, a) :: t =>
      match compare n x (literal name ++ [0]) with
      | Some true => Some (Some a)
      | Some false => first_match t x
      | None => None
      end
  end.
Lemma lookup_sized : forall l x, lookup l x = first_match (filter (fun y => fst (fst (fst y)) =? N.of_nat (List.length x)) l) x.
Proof.
  induction l as [|[[[z name] n] a] l IH]; intros x; [reflexivity|]. cbn [lookup filter fst]. rewrite (N.eqb_sym z).
  destruct (N.of_nat (List.length x) =? z); [|apply IH]. cbn [first_match]. unfold obind.
  destruct (compare n x (literal name ++ [0])) as [[]|]; [reflexivity|apply IH|reflexivity].
Qed.

Lemma lookup_names : forall x, lookup names x = first_match (sized (N.of_nat (List.length x))) x.
Proof. intros x. exact (lookup_sized names x). Qed.

Definition wanted (a : algid) : string := String.append "calculate_" (alg_name a).
Definition set_flag (a : option algid) (f : algid -> bool) : algid -> bool :=
  match a with Some a => fun b => algid_eqb a b || f b | None => f end.

Definition names_text (l : list entry) : stmt :=
  fold_right (fun (x : entry) rest => let '(_, name, n, a) := x in
    SIf (EBin OEq (ECall "system_string_compare" [(EVar "string_segment"); (EText name); (EInt (Z.of_nat n))]) (EInt 0))
      (SAssign (EVar (wanted a)) (EInt 1)) rest) SSkip l.
Definition sizes_text (l : list N) : stmt :=
  fold_right (fun n rest => SIf (EBin OEq (EVar "string_segment_size") (EInt (Z.of_N n))) (names_text (sized n)) rest) SSkip l.

Section Types.
  Variables (E : env) (O : outside) (sg : bool) (fuel d : nat).
  Notation P := (sum_text sg).
  Notation call := (call_sum E O sg fuel d).
  Notation run := (call_sum E O sg fuel (S d)).

  (* if( f( ... ) == c ) *)
  Lemma compared : forall T B c f es l vs (m : M B) (g : B -> Z) outs X Y (K : flow -> locals -> M T) s,
    evs E P call es l s = Done (vs, l) s -> is_external f = false ->
    call f vs s = (r <- m ;; ret (VS R32 (g r), outs r)) s ->
    (forall r, copy_out es (outs r) l = Some l) ->
    @den E P call fuel T (SIf (EBin OEq (ECall f es) (EInt c)) X Y) l K s =
    (r <- m ;; if (g r =? c)%Z then @den E P call fuel T X l K else @den E P call fuel T Y l K) s.
  Proof.
    intros T B c f es l vs m g outs X Y K s H1 H2 H3 H4. rewrite den_if.
    rewrite ev_bin_eq, ev_call_eq. unfold bind in H3 |- *. rewrite H1. cbn [fst snd]. rewrite H2, H3. destruct (m s) as [r s1|]; [|reflexivity]. unfold ret. cbn [fst snd]. rewrite H4.
    unfold lift, ret. cbn [eval fst snd]. unfold ret. cbn [fst snd].
    change (binary E OEq (VS R32 (g r)) (VS R32 c)) with (Some (truth (g r =? c)%Z)). cbn [fst snd]. rewrite test_truth.
    destruct (g r =? c)%Z; reflexivity.
  Qed.

  Section Scan.
    Variables (T : Type) (h0 : handle) (p : ptr) (e : bool) (k : nat) (pos : N) (q : nat) (len : N) (segments : list (option (list N))).

    Definition V (x : val) (n : N) (f : algid -> bool) (i : Z) (els : val) (h : handle) : locals :=
      frame [("sum_handle", v_handle (Some h0)); ("string", VChars p); ("error", v_error e)] h k pos
        [("string_segment", x); ("string_elements", els); ("string_length", VU RSz len); ("string_segment_size", VU RSz n);
         ("calculate_md5", v_flag (f MD5)); ("calculate_sha1", v_flag (f SHA1)); ("calculate_sha224", v_flag (f SHA224));
         ("calculate_sha256", v_flag (f SHA256)); ("calculate_sha512", v_flag (f SHA512));
         ("number_of_segments", VS R32 (Z.of_nat (List.length segments))); ("segment_index", VS R32 i); ("result", VS R32 0%Z)].
    Definition elements : val := VPtrs (VBytes (q, 0) :: map v_segment segments).

    Lemma wants : forall x n f i els h a, lget (V x n f i els h) (wanted a) = Some (v_flag (f a)) /\
      lset (V x n f i els h) (wanted a) (VU R8 1) = Some (V x n (set_flag (Some a) f) i els h).
    Proof. intros x n f i els h []; split; reflexivity. Qed.

    Lemma names_run : forall x n f i h l (K : flow -> locals -> M T) s,
      @den E P call fuel T (names_text l) (V (v_segment (Some x)) n f i elements h) K s =
      (a <- lift (first_match l (x ++ [0])) ;; K FNext (V (v_segment (Some x)) n (set_flag a f) i elements h)) s.
    Proof.
      intros x n f i h. induction l as [|[[[z name] m] a] l IH]; intros K s; [reflexivity|].
      cbn [names_text fold_right first_match].
      rewrite (compared _ bool) with (vs := [v_segment (Some x); VText name; VS R32 (Z.of_nat m)])
        (m := lift (compare m (x ++ [0]) (literal name ++ [0]))) (g := fun b : bool => if b then 0%Z else 1%Z) (outs := fun _ => [None; None; None]);
        [|sev|reflexivity| |reflexivity].
      2:{ rewrite outside_call by reflexivity. unfold sum_call. cbn [digest_function find_assoc String.eqb Ascii.eqb Bool.eqb v_segment].
          rewrite segment_back, codes_literal, Nat2Z.id. unfold lift at 1. rewrite bind_ret. reflexivity. }
      destruct (compare m (x ++ [0]) (literal name ++ [0])) as [[]|]; [| |reflexivity].
      - unfold lift. rewrite !bind_ret. cbn [Z.eqb]. rewrite den_assign.
        change (eval E P call (EInt 1) ?l s) with (Done (VS R32 1, l) s). cbn [fst snd].
        erewrite as_u; [|apply wants|reflexivity|apply wants]. reflexivity.
      - unfold lift at 1. rewrite bind_ret. change (1 =? 0)%Z with false. cbn iota. apply IH.
    Qed.

    Lemma size_is : forall x n m f i h s, m < 2 ^ 31 ->
      eval E P call (EBin OEq (EVar "string_segment_size") (EInt (Z.of_N m))) (V x n f i elements h) s = Done (truth (n =? m), V x n f i elements h) s.
    Proof.
      intros x n m f i h s H. eapply ev_bin; [eapply ev_var; reflexivity|reflexivity|].
      cbn [binary usual promote]. change (rank_leb R32 RSz) with true. cbv iota. rewrite lit_size; [reflexivity|].
      eapply N.lt_trans; [exact H|reflexivity].
    Qed.

    Lemma sizes_run : forall x f i h (K : flow -> locals -> M T) s,
      @den E P call fuel T (sizes_text [4; 5; 6; 7; 8]) (V (v_segment (Some x)) (N.of_nat (List.length (x ++ [0]))) f i elements h) K s =
      (a <- lift (lookup names (x ++ [0])) ;; K FNext (V (v_segment (Some x)) (N.of_nat (List.length (x ++ [0]))) (set_flag a f) i elements h)) s.
    Proof.
      intros x f i h K s. rewrite lookup_names. set (n := N.of_nat (List.length (x ++ [0]))).
      assert (G : forall l, (forall m, In m l -> m < 2 ^ 31) -> (~ In n l -> sized n = []) ->
        @den E P call fuel T (sizes_text l) (V (v_segment (Some x)) n f i elements h) K s =
        (a <- lift (first_match (sized n) (x ++ [0])) ;; K FNext (V (v_segment (Some x)) n (set_flag a f) i elements h)) s).
      { induction l as [|m l IH]; intros Hm Hn.
        - rewrite Hn by auto. reflexivity.
        - cbn [sizes_text fold_right]. rewrite (decided _ _ _ _ _ _ (n =? m)) by (apply size_is, Hm; now left).
          destruct (N.eqb_spec n m) as [<-|Nm]; [apply names_run|]. apply IH; [intros; apply Hm; now right|].
          intros Nl. apply Hn. intros [<-|I]; contradiction. }
      apply G.
      - intros m [<-|[<-|[<-|[<-|[<-|[]]]]]]; reflexivity.
      - intros Nn. clearbody n. clear G. unfold sized.
        assert (A : forall y, In y names -> In (fst (fst (fst y))) [4; 5; 6; 7; 8]).
        { assert (B : forallb (fun y => existsb (N.eqb (fst (fst (fst y)))) [4; 5; 6; 7; 8]) names = true) by reflexivity.
          rewrite forallb_forall in B. intros y Hy. specialize (B y Hy). apply existsb_exists in B. destruct B as (z & Hz & Q). apply N.eqb_eq in Q. congruence. }
        revert A. generalize names. induction l as [|y l IH]; intros A; [reflexivity|]. cbn [filter].
        destruct (N.eqb_spec (fst (fst (fst y))) n) as [Q|Q]; [exfalso; apply Nn; rewrite <- Q; apply A; now left|]. apply IH. intros; apply A; now right.
    Qed.

    Definition segment_text : stmt :=
      SIf (EBin ONe (ECall "system_split_string_get_segment_by_index" [(EVar "string_elements"); (EVar "segment_index"); (ERef "string_segment"); (ERef "string_segment_size"); (EVar "error")]) (EInt 1)) (
        SExpr (ECall "libcerror_error_set" [(EVar "error"); (EName "LIBCERROR_ERROR_DOMAIN_RUNTIME"); (EName "LIBCERROR_RUNTIME_ERROR_GET_FAILED")]) ;-
        SGoto) SSkip ;-
      SIf (EBin OEq (EVar "string_segment") ENull) (
        SExpr (ECall "libcerror_error_set" [(EVar "error"); (EName "LIBCERROR_ERROR_DOMAIN_RUNTIME"); (EName "LIBCERROR_RUNTIME_ERROR_VALUE_MISSING")]) ;-
        SReturn (EInt (-1))) SSkip ;-
      sizes_text [4; 5; 6; 7; 8].

    Lemma not_ref : forall x, is_arr (v_segment x) = false.
    Proof. intros []; reflexivity. Qed.
    Lemma null_segment : forall x, is_null (v_segment x) = Some (match x with Some _ => false | None => true end).
    Proof. intros []; reflexivity. Qed.

    Lemma scan_run : forall h (K : flow -> locals -> M T) RT RF,
      (forall x n f s, K FNext (V x n f (Z.of_nat (List.length segments)) elements h) s = RT f s) ->
      (forall x n f i s, K (FReturn (VS R32 (-1))) (V x n f i elements h) s = RF (-1)%Z s) ->
      (Z.of_nat (List.length segments) < 2 ^ 31)%Z ->
      forall rest done y n f g s, segments = done ++ rest -> (List.length rest <= g)%nat -> is_arr y = false ->
      @dloop E P call fuel T g (EBin OLt (EVar "segment_index") (EVar "number_of_segments")) (segment_text ;- SOp OAdd (EVar "segment_index") (EInt 1))
        (V y n f (Z.of_nat (List.length done)) elements h) K s =
      (x <- lift (scan_segments rest f) ;; if fst x : bool then RT (snd x) else r <- fail e E_RUNTIME_VALUE_MISSING ;; RF r) s.
    Proof.
      intros h K RT RF HT HF HL. induction rest as [|x rest IH]; intros done y n f g s Hs Hg Hy.
      - rewrite app_nil_r in Hs. rewrite dloop_end by (rewrite <- Hs; eapply ev_bin; [eapply ev_var; reflexivity|eapply ev_var; reflexivity|cbn [binary usual promote rank_max arith]; rewrite Z.ltb_irrefl; reflexivity]).
        rewrite <- Hs, HT. reflexivity.
      - assert (LS : List.length segments = (List.length done + S (List.length rest))%nat) by (rewrite Hs, app_length; reflexivity).
        destruct g as [|g]; [cbn in Hg; lia|].
        rewrite dloop_step by (eapply ev_bin; [eapply ev_var; reflexivity|eapply ev_var; reflexivity|cbn [binary usual promote rank_max arith];
          rewrite (proj2 (Z.ltb_lt _ _)) by lia; reflexivity]).
        rewrite !den_seq. unfold segment_text at 1.
        set (m := match x with Some t => N.of_nat (List.length (t ++ [0])) | None => 0 end).
        rewrite den_seq, (checked_to _ _ _ _ _ unit) with (vs := [elements; VS R32 (Z.of_nat (List.length done)); VRef y; VRef (VU RSz n); v_error e])
          (m := ret tt) (g := fun _ => 1%Z) (outs := fun _ => [None; None; Some (v_segment x); Some (VU RSz m); None])
          (lr := fun _ => V (v_segment x) m f (Z.of_nat (List.length done)) elements h); [| |reflexivity| |reflexivity].
        2:{ eapply evs_cons; [sev|]. eapply evs_cons; [sev|]. eapply evs_cons; [eapply ev_ref; [reflexivity|exact Hy]|]. sev. }
        2:{ rewrite outside_call by reflexivity. unfold sum_call. cbn [digest_function find_assoc String.eqb Ascii.eqb Bool.eqb elements].
            rewrite Nat2Z.id, nth_error_map, Hs, nth_error_app2 by lia. rewrite Nat.sub_diag. cbn [nth_error option_map]. unfold lift. rewrite !bind_ret.
            unfold m. destruct x as [t|]; [|reflexivity]. cbn [v_segment]. rewrite map_length. reflexivity. }
        rewrite bind_ret. change (negb (1 =? 1)%Z) with false. cbn iota. rewrite den_skip.
        rewrite den_seq, (missing _ _ _ _ _ "string_segment" (v_segment x) (match x with Some _ => false | None => true end)) by (reflexivity || apply null_segment).
        destruct x as [t|].
        + rewrite den_skip. unfold m. rewrite sizes_run. cbn [scan_segments]. unfold obind.
          destruct (lookup names (t ++ [0])) as [a|]; [|reflexivity]. unfold lift at 1. rewrite bind_ret.
          rewrite den_op. erewrite ev_var; [|reflexivity|reflexivity]. cbn [fst snd eval]. unfold ret at 1. cbn [fst snd].
          cbn [binary usual promote rank_max arith]. rewrite in_range_int by lia.
          replace (Z.of_nat (List.length done) + 1)%Z with (Z.of_nat (List.length (done ++ [Some t]))) by (rewrite app_length; cbn [List.length]; lia).
          erewrite as_s; [|reflexivity|apply ts_same|reflexivity].
          apply (IH (done ++ [Some t]) (v_segment (Some t)) (N.of_nat (List.length (t ++ [0]))) (set_flag a f) g s);
            [rewrite <- app_assoc; exact Hs|cbn in Hg; lia|reflexivity].
        + cbn [scan_segments]. unfold lift. rewrite bind_ret. cbn [fst]. eapply failed; [reflexivity|reflexivity|]. intros s1. apply HF.
    Qed.
  End Scan.

  (* ---------------------------------------------------------- the digests that are enabled *)

  Definition enable_text (a : algid) : stmt :=
    SIf (ELogAnd (EBin ONe (EVar (wanted a)) (EInt 0)) (EBin OEq (EOut (flag_of a)) (EInt 0))) (
      SAssign (EStar (string_of a)) (ECall "system_string_allocate" [(EInt (Z.of_N (string_size a)))]) ;-
      SIf (EBin OEq (EStar (string_of a)) ENull) (
        SExpr (ECall "libcerror_error_set" [(EVar "error"); (EName "LIBCERROR_ERROR_DOMAIN_MEMORY"); (EName "LIBCERROR_MEMORY_ERROR_INSUFFICIENT")]) ;-
        SGoto) SSkip ;-
      SAssign (EOut (flag_of a)) (EInt 1)) SSkip.

  Lemma as_flag : forall x b l l' s, lget l x = Some (VRef (v_flag b)) -> lset l x (VRef (v_flag true)) = Some l' ->
    assign E P call (EOut x) (VS R32 1) l s = Done l' s.
  Proof. intros x b l l' s H1 H2. cbn [assign]. rewrite H1. destruct b; cbn [v_flag]; unfold bind; change (to_unsigned E R8 (VS R32 1)) with (Some 1); cbn [lift]; unfold ret at 1; change (VRef (v_flag true)) with (VRef (VU R8 1)) in H2; rewrite H2; reflexivity. Qed.

  Lemma enable_block : forall L e f, view_of L e -> (forall h a, lget (L h) (wanted a) = Some (v_flag (f a))) ->
    forall T a h (K : flow -> locals -> M T) s,
    @den E P call fuel T (enable_text a) (L h) K s =
    (r <- enable_slot E f e a h ;; K (if (fst r =? 1)%Z then FNext else FError) (L (snd r))) s.
  Proof.
    intros L e f W HW T a h K s. unfold enable_text, enable_slot.
    rewrite (decided _ _ _ _ _ _ (f a && negb (calculate (slots h a)))).
    2:{ apply ev_and.
        - eapply ev_bin; [eapply ev_var; [apply HW|reflexivity]|reflexivity|]. destruct (f a); reflexivity.
        - intros _. rewrite ev_bin_eq. cbn [eval]. rewrite (at_flag L e W). destruct (calculate (slots h a)); reflexivity. }
    destruct (f a && negb (calculate (slots h a))) eqn:C; [|reflexivity]. apply andb_true_iff in C. destruct C as [_ C]. apply negb_true_iff in C.
    rewrite den_seq, (assigned _ _ _ _ _ (option nat)) with (vs := [VS R32 (Z.of_N (string_size a))]) (m := allocate_bytes E (string_size a)) (g := v_string) (outs := fun _ => [None])
        (l1 := fun _ => L h) (lr := fun q => L (set_slot a (mk_slot (calculate (slots h a)) (context (slots h a)) q) h));
        [|sev|reflexivity|apply string_allocated; destruct a; reflexivity|reflexivity|
         intros q s3 _; eapply as_star; [apply (at_string L e W)|apply null_string|apply (to_string L e W)]].
    rewrite bind_assoc. apply bind_ext. intros q s1 _. cbn [fst snd].
    set (h1 := set_slot a (mk_slot (calculate (slots h a)) (context (slots h a)) q) h).
    assert (S1 : slots h1 a = mk_slot (calculate (slots h a)) (context (slots h a)) q) by (unfold h1; cbn [slots set_slot]; destruct a; reflexivity).
    pose proof (at_string L e W h1 a) as AS. rewrite S1 in AS. cbn [hash_string] in AS.
    rewrite den_seq, (star_missing _ _ _ _ _ _ _ _ _ _ _ _ _ AS (null_string q)). destruct q as [q|].
    - rewrite den_skip, den_assign. change (eval E P call (EInt 1) (L h1) s1) with (Done (VS R32 1, L h1) s1). cbn [fst snd].
      erewrite as_flag; [|apply (at_flag L e W)|apply (to_flag L e W)]. rewrite bind_ret. cbn [fst snd Z.eqb Pos.eqb]. rewrite S1. reflexivity.
    - unfold fail. rewrite jumped with (k := E_MEMORY_INSUFFICIENT) (e := e) by (reflexivity || apply (at_error L e W)). rewrite !bind_assoc. apply bind_ext. intros [] s2 _.
      reflexivity.
  Qed.

  (* ---------------------------------------------------------- sum_handle_set_digest_types *)

  Lemma text_set_digest_types : forall h p str t e k pos s,
    view p s = Done str s -> until_zero str = Some t -> N.of_nat (List.length t) + 1 < size_mod E ->
    (forall segments, o_split O t = Some segments -> (Z.of_nat (List.length segments) < 2 ^ 31)%Z /\ (List.length segments <= fuel)%nat) ->
    run "sum_handle_set_digest_types" (v_handle h :: VChars p :: v_error e :: v_members h k pos) s =
    (x <- sum_handle_set_digest_types E (o_split O) h t e ;;
     ret (VS R32 (fst x), None :: None :: None :: left_members (snd x) k pos)) s.
  Proof.
    intros [h|] p str t e k pos s Hv Ht Hl Hseg.
    - set (n := N.of_nat (List.length t)) in *.
      set (L := fun len els segs => V h p e k pos len segs VNull 0 (fun _ => false) 0 els h).
      eapply enter_sum with (l := frame [("sum_handle", v_handle (Some h)); ("string", VChars p); ("error", v_error e)] h k pos []) (l1 := L 0 VNull []);
        [reflexivity|reflexivity|reflexivity|tloc|].
      intros kl ke Hkl Hke.
      assert (Hret : forall len segs x m f i els h1 z s1, z = 0%Z \/ z = (-1)%Z -> ke (FReturn (VS R32 z)) (V h p e k pos len segs x m f i els h1) s1 =
                ret (VS R32 z, None :: None :: None :: left_members (Some h1) k pos) s1).
      { intros len segs x m f i els h1 z s1 [-> | ->]; subst ke kl; erewrite leave_plain by reflexivity; destruct e; reflexivity. }
      assert (Herr0 : forall len segs x m f i h1 s1, ke FError (V h p e k pos len segs x m f i VNull h1) s1 =
                ret (VS R32 (-1), None :: None :: None :: left_members (Some h1) k pos) s1).
      { intros len segs x m f i h1 s1. rewrite Hke.
        change (f_error text_sum_handle_set_digest_types) with (SIf (EBin ONe (EVar "string_elements") ENull)
          (SExpr (ECall "system_split_string_free" [(ERef "string_elements"); ENull])) SSkip ;- SReturn (EInt (-1))).
        rewrite den_seq, (given _ _ _ _ _ "string_elements" VNull true) by reflexivity. rewrite den_skip, den_return_int.
        rewrite <- (Hret len segs x m f i VNull h1 (-1)%Z s1) by auto. rewrite Hke. reflexivity. }
      assert (Hfree : forall q segs error s1, call "system_split_string_free" [VRef (elements q segs); error] s1 = (mfree q ;;; ret (VS R32 1, [Some VNull; None])) s1).
      { intros q segs error s1. rewrite outside_call by reflexivity. reflexivity. }
      assert (Herr1 : forall q len segs x m f i h1 s1, ke FError (V h p e k pos len segs x m f i (elements q segs) h1) s1 =
                (mfree q ;;; ret (VS R32 (-1), None :: None :: None :: left_members (Some h1) k pos)) s1).
      { intros q len segs x m f i h1 s1. rewrite Hke.
        change (f_error text_sum_handle_set_digest_types) with (SIf (EBin ONe (EVar "string_elements") ENull)
          (SExpr (ECall "system_split_string_free" [(ERef "string_elements"); ENull])) SSkip ;- SReturn (EInt (-1))).
        rewrite den_seq, (given _ _ _ _ _ "string_elements" (elements q segs) false) by reflexivity.
        rewrite (called _ _ _ _ _ unit) with (vs := [VRef (elements q segs); VNull]) (m := mfree q) (g := fun _ => 1%Z) (outs := fun _ => [Some VNull; None])
          (lr := fun _ => V h p e k pos len segs x m f i VNull h1); [|sev|reflexivity|apply Hfree|reflexivity].
        apply bind_ext. intros [] s2 _. rewrite den_return_int.
        rewrite <- (Hret len segs x m f i VNull h1 (-1)%Z s2) by auto. rewrite Hke. reflexivity. }
      clear Hke Hkl. opened_all. cbn [sum_handle_set_digest_types].
      rewrite den_seq, (assigned _ _ _ _ _ unit) with (m := ret tt) (g := fun _ => VU RSz n) (outs := fun _ => [None])
        (l1 := fun _ => L 0 VNull []) (lr := fun _ => L n VNull []) (vs := [VChars p]);
        [|sev|reflexivity| |reflexivity|intros; eapply as_u; [reflexivity|apply tu_same|reflexivity]].
      2:{ rewrite outside_call by reflexivity. unfold sum_call. cbn [digest_function find_assoc String.eqb Ascii.eqb Bool.eqb].
          unfold bind. rewrite Hv, Ht. reflexivity. }
      rewrite bind_ret.
      assert (Hargs : evs E P call [(EVar "string"); (EBin OAdd (EVar "string_length") (EInt 1)); (EInt 44); (ERef "string_elements"); (EVar "error")] (L n VNull []) s =
                Done ([VChars p; VU RSz (n + 1); VS R32 44; VRef VNull; v_error e], L n VNull []) s).
      { eapply evs_cons; [sev|]. eapply evs_cons; [eapply ev_bin; [eapply ev_var; reflexivity|reflexivity|]|sev].
        cbn [binary usual promote]. change (rank_leb R32 RSz) with true. cbv iota.
        change 1%Z with (Z.of_N 1). rewrite lit_size by reflexivity. cbn [arith]. rewrite uadd_size by lia. reflexivity. }
      assert (Hsplit : call "system_string_split" [VChars p; VU RSz (n + 1); VS R32 44; VRef VNull; v_error e] s =
                match o_split O t with
                | None => ret (VS R32 (-1)%Z, [None; None; None; Some VNull; None])
                | Some segments => q <- allocate (OBytes []) E ;;
                    ret match q with
                        | Some q => (VS R32 1%Z, [None; None; None; Some (elements q segments); None])
                        | None => (VS R32 (-1)%Z, [None; None; None; Some VNull; None])
                        end
                end s).
      { rewrite outside_call by reflexivity. unfold sum_call. cbn [digest_function find_assoc String.eqb Ascii.eqb Bool.eqb].
        unfold bind at 1. rewrite Hv, Ht. unfold lift. rewrite bind_ret. fold n. rewrite N.eqb_refl. destruct (o_split O t); reflexivity. }
      destruct (o_split O t) as [segments|] eqn:HS.
      2:{ rewrite den_seq, (checked_to _ _ _ _ _ unit) with (vs := [VChars p; VU RSz (n + 1); VS R32 44; VRef VNull; v_error e])
            (m := ret tt) (g := fun _ => (-1)%Z) (outs := fun _ => [None; None; None; Some VNull; None]) (lr := fun _ => L n VNull []); [|exact Hargs|reflexivity|rewrite Hsplit; reflexivity|reflexivity].
          rewrite bind_ret. change (negb (-1 =? 1)%Z) with true. cbn iota.
          rewrite jumped with (k := E_RUNTIME_INITIALIZE_FAILED) (e := e) by reflexivity. unfold fail. rewrite !bind_assoc. apply bind_ext. intros [] s2 _. apply Herr0. }
      destruct (Hseg segments eq_refl) as [Hs1 Hs2].
      rewrite den_seq, (checked_to _ _ _ _ _ (option nat)) with (vs := [VChars p; VU RSz (n + 1); VS R32 44; VRef VNull; v_error e])
        (m := allocate (OBytes []) E) (g := fun q => match q with Some _ => 1%Z | None => (-1)%Z end)
        (outs := fun q => [None; None; None; Some (match q with Some q => elements q segments | None => VNull end); None])
        (lr := fun q => L n (match q with Some q => elements q segments | None => VNull end) []); [|exact Hargs|reflexivity| |reflexivity].
      2:{ rewrite Hsplit. unfold bind. destruct (allocate (OBytes []) E s) as [[q|] s1|]; reflexivity. }
      rewrite !bind_assoc. apply bind_ext. intros [q|] s1 _.
      2:{ change (negb (-1 =? 1)%Z) with true. cbn iota.
          rewrite jumped with (k := E_RUNTIME_INITIALIZE_FAILED) (e := e) by reflexivity. unfold fail. rewrite !bind_assoc. apply bind_ext. intros [] s2 _. apply Herr0. }
      change (negb (1 =? 1)%Z) with false. cbn iota. rewrite den_skip.
      rewrite den_seq, (checked_to _ _ _ _ _ unit) with (vs := [elements q segments; VRef (VS R32 0); v_error e])
        (m := ret tt) (g := fun _ => 1%Z) (outs := fun _ => [None; Some (VS R32 (Z.of_nat (List.length segments))); None])
        (lr := fun _ => L n (elements q segments) segments); [|sev|reflexivity| |reflexivity].
      2:{ rewrite outside_call by reflexivity. unfold sum_call. cbn [digest_function find_assoc String.eqb Ascii.eqb Bool.eqb elements].
          rewrite map_length. reflexivity. }
      rewrite bind_ret. change (negb (1 =? 1)%Z) with false. cbn iota. rewrite den_skip.
      rewrite den_seq, den_for, den_assign. change (eval E P call (EInt 0) ?l s1) with (Done (VS R32 0, l) s1). cbn [fst snd].
      rewrite (as_s _ _ _ _ _ _ _ _ 0%Z (L n (elements q segments) segments)) by (reflexivity || apply ts_same).
      rewrite bind_assoc.
      etransitivity; [refine (scan_run _ h p e k pos q n segments h _
         (fun f s => (x <- steps (enable_slot E f e) all_algs h ;; mfree q ;;;
                      ret (VS R32 (if (fst x =? 1)%Z then 0 else -1)%Z, None :: None :: None :: left_members (Some (snd x)) k pos)) s)
         (fun z => ret (VS R32 z, None :: None :: None :: left_members (Some h) k pos)) _ _ Hs1 segments [] VNull 0 (fun _ => false) fuel s1 eq_refl Hs2 eq_refl)|].
      + intros x m f s2. cbn beta iota.
        set (LH := V h p e k pos n segments x m f (Z.of_nat (List.length segments)) (elements q segments)).
        assert (W : view_of LH e) by viewed.
        match goal with |- den ?x _ _ _ = _ => match x with context [SIf (EBin ONe (ECall "system_split_string_free" ?a) ?o) ?y ?n ;- ?r] =>
          change x with (chain enable_text all_algs (SIf (EBin ONe (ECall "system_split_string_free" a) o) y n ;- r)) end end.
        change (V h p e k pos n segments x m f (Z.of_nat (List.length segments)) (elements q segments) h) with (LH h).
        rewrite (chain_run _ _ _ _ _ _ (enable_slot E f e) LH (fun _ => FError)).
        2:{ discriminate. }
        2:{ intros. apply enable_block; [exact W|]. intros h1 a1. unfold LH. apply wants. }
        apply bind_ext. intros [z h1] s3 _. cbn [fst snd]. destruct (z =? 1)%Z.
        * rewrite den_seq, (checked_to _ _ _ _ _ unit) with (vs := [VRef (elements q segments); v_error e]) (m := mfree q) (g := fun _ => 1%Z) (outs := fun _ => [Some VNull; None])
            (lr := fun _ => V h p e k pos n segments x m f (Z.of_nat (List.length segments)) VNull h1); [|sev|reflexivity|apply Hfree|reflexivity].
          apply bind_ext. intros [] s4 _. change (negb (1 =? 1)%Z) with false. cbn iota. rewrite den_skip, den_return. erewrite ev_var; [|reflexivity|reflexivity].
          apply Hret. auto.
        * apply Herr1.
      + intros x m f i s2. cbn beta iota. apply Hret. auto.
      + apply bind_ext. intros [b f] s2 _. cbn [fst snd]. destruct b; [|reflexivity].
        rewrite !bind_assoc. apply bind_ext. intros [z h1] s3 _. rewrite !bind_assoc. apply bind_ext. intros [] s4 _. reflexivity.
    - refused [("sum_handle", VNull); ("string", VChars p); ("error", v_error e)]. destruct e; reflexivity.
  Qed.
End Types.
