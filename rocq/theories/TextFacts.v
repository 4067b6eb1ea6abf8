(* Executing the statements of the C text one after the other. *)
From Coq Require Import Arith NArith ZArith List Lia Bool String.
From Verif Require Import Words Machine Context Hash CText.
From Verif Require Import MachineFacts.
Import ListNotations.
Open Scope string_scope.
Open Scope list_scope.
Open Scope N_scope.

Section Steps.
  Variables (E : env) (P : program) (call : string -> list val -> M (val * list (option val))) (fuel : nat).
  Variable A : Type.

  (* execute a statement, then go on with [K] *)
  Definition den (st : stmt) (l : locals) (K : flow -> locals -> M A) : M A :=
    fun s => match exec E P call fuel st l s with Done r s' => K (fst r) (snd r) s' | Undef => Undef end.

  Lemma den_skip : forall l K s, den SSkip l K s = K FNext l s.
  Proof. reflexivity. Qed.
  Lemma den_seq : forall a b l K s,
    den (SSeq a b) l K s = den a l (fun f l' => match f with FNext => den b l' K | _ => K f l' end) s.
  Proof.
    intros. unfold den. cbn [exec]. unfold bind. destruct (exec E P call fuel a l s) as [[f l'] s'|]; [|reflexivity].
    cbn [fst snd]. destruct f; reflexivity.
  Qed.
  Lemma den_expr : forall e l K s,
    den (SExpr e) l K s = match eval E P call e l s with Done v s' => K FNext (snd v) s' | Undef => Undef end.
  Proof. intros. unfold den. cbn [exec]. unfold bind, ret. destruct (eval E P call e l s); reflexivity. Qed.
  Lemma den_assign : forall y e l K s,
    den (SAssign y e) l K s =
    match eval E P call e l s with
    | Done v s1 => match assign E P call y (fst v) (snd v) s1 with Done l' s2 => K FNext l' s2 | Undef => Undef end
    | Undef => Undef
    end.
  Proof.
    intros. unfold den. cbn [exec]. unfold bind, ret. destruct (eval E P call e l s) as [v s1|]; [|reflexivity].
    destruct (assign E P call y (fst v) (snd v) s1); reflexivity.
  Qed.
  Lemma den_op : forall o y e l K s,
    den (SOp o y e) l K s =
    match eval E P call y l s with
    | Done u s1 =>
        match eval E P call e (snd u) s1 with
        | Done v s2 =>
            match binary E o (fst u) (fst v) with
            | Some x => match assign E P call y x (snd v) s2 with Done l' s3 => K FNext l' s3 | Undef => Undef end
            | None => Undef
            end
        | Undef => Undef
        end
    | Undef => Undef
    end.
  Proof.
    intros. unfold den. cbn [exec]. unfold bind, ret, lift, undef. destruct (eval E P call y l s) as [u s1|]; [|reflexivity].
    destruct (eval E P call e (snd u) s1) as [v s2|]; [|reflexivity].
    destruct (binary E o (fst u) (fst v)) as [x|]; [|reflexivity]. cbn.
    destruct (assign E P call y x (snd v) s2); reflexivity.
  Qed.
  Lemma den_if : forall c a b l K s,
    den (SIf c a b) l K s =
    match eval E P call c l s with
    | Done v s1 => match test (fst v) with
                   | Some true => den a (snd v) K s1
                   | Some false => den b (snd v) K s1
                   | None => Undef
                   end
    | Undef => Undef
    end.
  Proof.
    intros. unfold den. cbn [exec]. unfold bind, lift, undef. destruct (eval E P call c l s) as [v s1|]; [|reflexivity].
    destruct (test (fst v)) as [[]|]; reflexivity.
  Qed.
  Lemma den_return : forall e l K s,
    den (SReturn e) l K s = match eval E P call e l s with Done v s' => K (FReturn (fst v)) (snd v) s' | Undef => Undef end.
  Proof. intros. unfold den. cbn [exec]. unfold bind, ret. destruct (eval E P call e l s); reflexivity. Qed.
  Lemma den_goto : forall l K s, den SGoto l K s = K FError l s.
  Proof. reflexivity. Qed.
End Steps.
Arguments den {E P call fuel A}.

(* running a function: the arguments, the body, the end *)
Definition leave (E : env) (f : fundef) (fl : flow) (l : locals) : M (val * list (option val)) :=
  match fl with
  | FReturn v =>
      v' <- lift (convert E (fst (f_ret f)) (snd (f_ret f)) v) ;;
      leave_arrays (f_arrays f) l ;;;
      leave_frame (f_arrays f) l ;;;
      ret (v', map (fun x => match snd x with VRef u => Some u | _ => None end) (firstn (List.length (f_params f)) l))
  | _ => undef
  end.

Lemma run_fun_eq : forall E P call fuel f args s,
  run_fun E P call fuel f args s =
  match bind_params E (f_params f) args with
  | None => Undef
  | Some l =>
      match enter_arrays E (f_arrays f) 0 s with
      | Undef => Undef
      | Done a s1 =>
          match enter_locals E P call (f_locals f) (l ++ a) s1 with
          | Undef => Undef
          | Done l s2 =>
              @den E P call fuel _ (f_body f) l
                (fun fl l => match fl with
                             | FReturn v => leave E f fl l
                             | FBreak => undef
                             | _ => @den E P call fuel _ (f_error f) l (leave E f)
                             end) s2
          end
      end
  end.
Proof.
  intros. unfold run_fun, den, leave, bind, lift, ret, undef.
  destruct (bind_params E (f_params f) args); [|reflexivity].
  destruct (enter_arrays E (f_arrays f) 0 s) as [a s1|]; [|reflexivity].
  destruct (enter_locals E P call (f_locals f) (l ++ a) s1) as [l1 s2|]; [|reflexivity].
  destruct (exec E P call fuel (f_body f) l1 s2) as [[fl l2] s3|]; [|reflexivity]. cbn [fst snd].
  destruct fl; cbn [fst snd]; try reflexivity;
  destruct (exec E P call fuel (f_error f) l2 s3) as [[[|v| |] l3] s4|]; reflexivity.
Qed.

Lemma call_text_eq : forall E P fuel d f args s,
  call_text E P fuel (S d) f args s =
  match find_fun (p_functions P) f with
  | Some def => run_fun E P (call_text E P fuel d) fuel def args s
  | None => Undef
  end.
Proof. intros. cbn [call_text]. destruct (find_fun (p_functions P) f); reflexivity. Qed.

(* ------------------------------------------------------------- one step at a time *)

Lemma den_seq_named : forall E P call fuel A a b l (K : flow -> locals -> M A) s R,
  (forall kb K', kb = (fun l' => @den E P call fuel A b l' K) ->
                 K' = (fun f l' => match f with FNext => kb l' | _ => K f l' end) ->
                 @den E P call fuel A a l K' s = R) ->
  @den E P call fuel A (SSeq a b) l K s = R.
Proof. intros. rewrite den_seq. eapply H; reflexivity. Qed.

Lemma enter_fun : forall E P fuel d f def args s l a s1 l1 s2 R,
  find_fun (p_functions P) f = Some def ->
  bind_params E (f_params def) args = Some l ->
  enter_arrays E (f_arrays def) 0 s = Done a s1 ->
  enter_locals E P (call_text E P fuel d) (f_locals def) (l ++ a) s1 = Done l1 s2 ->
  (forall kl ke, kl = leave E def ->
                ke = (fun fl l => match fl with
                             | FReturn v => kl fl l
                             | FBreak => undef
                             | _ => @den E P (call_text E P fuel d) fuel _ (f_error def) l kl
                             end) ->
     @den E P (call_text E P fuel d) fuel _ (f_body def) l1 ke s2 = R) ->
  call_text E P fuel (S d) f args s = R.
Proof.
  intros E P fuel d f def args s l a s1 l1 s2 R H1 H2 H3 H4 H5.
  rewrite call_text_eq, H1, run_fun_eq, H2, H3, H4. eapply H5; reflexivity.
Qed.

Lemma test_truth : forall b, test (truth b) = Some b.
Proof. intros []; reflexivity. Qed.

Section Ok.
  Variables (E : env) (P : program) (call : string -> list val -> M (val * list (option val))) (fuel : nat).
  Notation ev := (eval E P call).

  (* ---------------------------------------------------------- expressions *)

  Definition is_arr (v : val) : bool := match v with VArr _ _ _ => true | _ => false end.

  Lemma ev_var : forall x l s v, lget l x = Some v -> is_arr v = false -> ev (EVar x) l s = Done (v, l) s.
  Proof. intros x l s v H N. cbn [eval]. rewrite H. destruct v; try discriminate; reflexivity. Qed.
  Lemma ev_arr : forall x l s r ws w, lget l x = Some (VArr r ws w) -> ev (EVar x) l s = Done (VLoc x 0, l) s.
  Proof. intros. cbn [eval]. rewrite H. reflexivity. Qed.
  Lemma ev_tab : forall x l s t, lget l x = None -> find_assoc (p_tables P) x = Some t ->
    ev (EVar x) l s = Done (VTab x 0, l) s.
  Proof. intros. cbn [eval]. rewrite H, H0. reflexivity. Qed.
  Lemma ev_star : forall x l s v, lget l x = Some (VRef v) -> ev (EStar x) l s = Done (v, l) s.
  Proof. intros. cbn [eval]. rewrite H. reflexivity. Qed.
  Lemma ev_ref : forall x l s v, lget l x = Some v -> is_arr v = false -> ev (ERef x) l s = Done (VRef v, l) s.
  Proof. intros x l s v H N. cbn [eval]. rewrite H. destruct v; try discriminate; reflexivity. Qed.
  Lemma ev_count : forall e l s a p l1 s1 c, ev e l s = Done (VCtx a p, l1) s1 -> load_ctx a p s1 = Done c s1 ->
    ev (EField e "hash_count") l s = Done (VU R64 (c_count c), l1) s1.
  Proof. intros. cbn [eval]. unfold bind. rewrite H. cbn. unfold bind. rewrite H0. reflexivity. Qed.
  Lemma ev_boff : forall e l s a p l1 s1 c, ev e l s = Done (VCtx a p, l1) s1 -> load_ctx a p s1 = Done c s1 ->
    ev (EField e "block_offset") l s = Done (VU RSz (c_boff c), l1) s1.
  Proof. intros. cbn [eval]. unfold bind. rewrite H. cbn. unfold bind. rewrite H0. reflexivity. Qed.
  Lemma ev_hash : forall e l s a p l1 s1, ev e l s = Done (VCtx a p, l1) s1 ->
    ev (EField e "hash_values") l s = Done (VWords a p 0, l1) s1.
  Proof. intros. cbn [eval]. unfold bind. rewrite H. reflexivity. Qed.
  Lemma ev_block : forall e l s a p l1 s1, ev e l s = Done (VCtx a p, l1) s1 ->
    ev (EField e "block") l s = Done (VBlock a p 0, l1) s1.
  Proof. intros. cbn [eval]. unfold bind. rewrite H. reflexivity. Qed.
  Lemma ev_index : forall e i l s v l1 s1 k l2 s2 n q x s3,
    ev e l s = Done (v, l1) s1 -> ev i l1 s1 = Done (k, l2) s2 -> amount k = Some n -> index v n = Some q ->
    load_at P l2 q s2 = Done x s3 -> ev (EIndex e i) l s = Done (x, l2) s3.
  Proof.
    intros. cbn [eval]. unfold bind. rewrite H. cbn [fst snd]. rewrite H0. cbn [fst snd]. rewrite H1. cbn [lift ret].
    unfold ret. rewrite H2. cbn [lift]. unfold ret. rewrite H3. reflexivity.
  Qed.
  Lemma ev_addr : forall e i l s v l1 s1 k l2 s2 n q,
    ev e l s = Done (v, l1) s1 -> ev i l1 s1 = Done (k, l2) s2 -> amount k = Some n -> index v n = Some q ->
    ev (EAddr (EIndex e i)) l s = Done (q, l2) s2.
  Proof.
    intros. cbn [eval]. unfold bind. rewrite H. cbn [fst snd]. rewrite H0. cbn [fst snd]. rewrite H1. cbn [lift ret].
    unfold ret. rewrite H2. reflexivity.
  Qed.
  Lemma ev_not : forall e l s r n l1 s1, ev e l s = Done (VU r n, l1) s1 -> rank_eqb r R8 = false ->
    ev (ENot e) l s = Done (VU r (unot (bits E r) n), l1) s1.
  Proof. intros. cbn [eval]. unfold bind. rewrite H. cbn [fst snd promote]. destruct r; try discriminate; reflexivity. Qed.
  Lemma ev_cast : forall g r e l s v l1 s1 x, ev e l s = Done (v, l1) s1 -> convert E g r v = Some x ->
    ev (ECast g r e) l s = Done (x, l1) s1.
  Proof. intros. cbn [eval]. unfold bind. rewrite H. cbn [fst snd]. rewrite H0. reflexivity. Qed.
  Lemma ev_bin : forall o a b l s v l1 s1 w l2 s2 x,
    ev a l s = Done (v, l1) s1 -> ev b l1 s1 = Done (w, l2) s2 -> binary E o v w = Some x ->
    ev (EBin o a b) l s = Done (x, l2) s2.
  Proof. intros. cbn [eval]. unfold bind. rewrite H. cbn [fst snd]. rewrite H0. cbn [fst snd]. rewrite H1. reflexivity. Qed.

  (* arguments *)
  Fixpoint evs (es : list expr) (l : locals) : M (list val * locals) :=
    match es with
    | [] => ret ([], l)
    | e :: t => v <- ev e l ;; r <- evs t (snd v) ;; ret (fst v :: fst r, snd r)
    end.
  Lemma evs_nil : forall l s, evs [] l s = Done ([], l) s.
  Proof. reflexivity. Qed.
  Lemma evs_cons : forall e t l s v l1 s1 vs l2 s2,
    ev e l s = Done (v, l1) s1 -> evs t l1 s1 = Done (vs, l2) s2 -> evs (e :: t) l s = Done (v :: vs, l2) s2.
  Proof. intros. cbn [evs]. unfold bind. rewrite H. cbn [fst snd]. rewrite H0. reflexivity. Qed.
  Lemma ev_call_eq : forall f es l,
    ev (ECall f es) l =
    (vs <- evs es l ;;
     if is_external f then external E P f (fst vs) (snd vs)
     else r <- call f (fst vs) ;; l' <- lift (copy_out es (snd r) (snd vs)) ;; ret (fst r, l')).
  Proof. reflexivity. Qed.
  Lemma ev_ext : forall f es l s vs l1 s1 r s2,
    evs es l s = Done (vs, l1) s1 -> is_external f = true -> external E P f vs l1 s1 = Done r s2 ->
    ev (ECall f es) l s = Done r s2.
  Proof. intros. rewrite ev_call_eq. unfold bind. rewrite H, H0. exact H1. Qed.
  Lemma ev_call : forall f es l s vs l1 s1 r outs s2 l2,
    evs es l s = Done (vs, l1) s1 -> is_external f = false -> call f vs s1 = Done (r, outs) s2 ->
    copy_out es outs l1 = Some l2 -> ev (ECall f es) l s = Done (r, l2) s2.
  Proof.
    intros. rewrite ev_call_eq. unfold bind. rewrite H, H0. cbn [fst snd]. rewrite H1. cbn [fst snd]. rewrite H2.
    reflexivity.
  Qed.

  (* ---------------------------------------------------------- integers *)

  Lemma bin_uu : forall o r n m x, rank_eqb r R8 = false -> o <> OShl -> o <> OShr ->
    arith E o (PU r n m) = Some x -> binary E o (VU r n) (VU r m) = Some x.
  Proof. intros o r n m x R ? ? H. destruct r; try discriminate; destruct o; try congruence; exact H. Qed.
  Lemma bin_us : forall o r n r' y m x, rank_eqb r R8 = false -> rank_leb r' r = true -> o <> OShl -> o <> OShr ->
    to_unsigned E r (VS r' y) = Some m -> arith E o (PU r n m) = Some x -> binary E o (VU r n) (VS r' y) = Some x.
  Proof.
    intros o r n r' y m x R L ? ? T H. destruct r; try discriminate; destruct r'; try discriminate; destruct o; try congruence;
      cbn [binary usual promote]; cbv [rank_leb rank_max rank_eqb]; unfold to_unsigned in T; injection T as <-; exact H.
  Qed.
  Lemma bin_u8 : forall o r n y m x, rank_eqb r R8 = false -> o <> OShl -> o <> OShr ->
    to_unsigned E r (VS R32 (Z.of_N y)) = Some m -> arith E o (PU r n m) = Some x ->
    binary E o (VU r n) (VU R8 y) = Some x.
  Proof.
    intros o r n y m x R ? ? T H. destruct r; try discriminate; destruct o; try congruence;
      cbn [binary usual promote]; cbv [rank_leb rank_max rank_eqb]; rewrite T; exact H.
  Qed.
  Lemma bin_su : forall o r n r' y m x, rank_eqb r R8 = false -> rank_leb r' r = true -> o <> OShl -> o <> OShr ->
    to_unsigned E r (VS r' y) = Some m -> arith E o (PU r m n) = Some x -> binary E o (VS r' y) (VU r n) = Some x.
  Proof.
    intros o r n r' y m x R L ? ? T H. destruct r; try discriminate; destruct r'; try discriminate; destruct o; try congruence;
      cbn [binary usual promote]; cbv [rank_leb rank_max rank_eqb]; unfold to_unsigned in T; injection T as <-; exact H.
  Qed.
  Lemma bin_ss : forall o r r' z y x, rank_eqb r R8 = false -> rank_eqb r' R8 = false -> o <> OShl -> o <> OShr ->
    arith E o (PS (rank_max r r') z y) = Some x -> binary E o (VS r z) (VS r' y) = Some x.
  Proof. intros o r r' z y x R R' ? ? H. destruct r; try discriminate; destruct r'; try discriminate; destruct o; try congruence; exact H. Qed.

  Lemma tu_same : forall r n, to_unsigned E r (VU r n) = Some n.
  Proof. intros [] n; reflexivity. Qed.
  Lemma bits_ge : 32 <= bits E RSz.
  Proof. cbn [bits]. destruct (plat64 E); lia. Qed.
  Lemma bits_size_mod : 2 ^ bits E RSz = size_mod E.
  Proof. cbn [bits]. unfold size_mod. destruct (plat64 E); reflexivity. Qed.
  Lemma tu_int : forall r r' z, rank_eqb r R8 = false -> (0 <= z < 2 ^ 32)%Z -> to_unsigned E r (VS r' z) = Some (Z.to_N z).
  Proof.
    intros r r' z R H. cbn [to_unsigned]. rewrite Z.mod_small; [reflexivity|].
    assert (2 ^ 32 <= 2 ^ Z.of_N (bits E r))%Z.
    { apply Z.pow_le_mono_r; [lia|]. destruct r; try discriminate; try (cbn; lia). pose proof bits_ge. lia. }
    lia.
  Qed.
  Lemma tu_byte : forall r' z, (0 <= z < 256)%Z -> to_unsigned E R8 (VS r' z) = Some (Z.to_N z).
  Proof. intros r' z H. cbn [to_unsigned]. rewrite Z.mod_small; [reflexivity|]. cbn. lia. Qed.
  Lemma tu_ssize_max : to_unsigned E RSz (VS RSz (2 ^ Z.of_N (bits E RSz - 1) - 1)%Z) = Some (ssize_max E).
  Proof. cbn [to_unsigned bits]. unfold ssize_max. destruct (plat64 E); reflexivity. Qed.
  Lemma ts_same : forall r z, to_signed E r (VS r z) = Some z.
  Proof. intros [] z; reflexivity. Qed.

  Lemma bin_mul_lit : forall n z m, to_unsigned E RSz (VS R32 z) = Some m -> n * m < 2 ^ 32 ->
    binary E OMul (VU RSz n) (VS R32 z) = Some (VU RSz (n * m)).
  Proof.
    intros n z m H L. apply bin_us with (m := m); try reflexivity; try discriminate; [exact H|].
    cbn [arith]. rewrite N.mod_small; [reflexivity|].
    pose proof (N.pow_le_mono_r 2 _ _ ltac:(discriminate) bits_ge). lia.
  Qed.

  Lemma conv_u : forall r v n, to_unsigned E r v = Some n -> convert E false r v = Some (VU r n).
  Proof. intros. cbn [convert]. rewrite H. reflexivity. Qed.
  Lemma conv_s : forall r v n, to_signed E r v = Some n -> convert E true r v = Some (VS r n).
  Proof. intros. cbn [convert]. rewrite H. reflexivity. Qed.

  (* ---------------------------------------------------------- assignments *)

  Lemma as_u : forall y l r n x m l' s, lget l y = Some (VU r n) -> to_unsigned E r x = Some m ->
    lset l y (VU r m) = Some l' -> assign E P call (EVar y) x l s = Done l' s.
  Proof. intros. cbn [assign]. rewrite H. unfold bind. rewrite H0. cbn [lift]. unfold ret. rewrite H1. reflexivity. Qed.
  Lemma as_s : forall y l r n x m l' s, lget l y = Some (VS r n) -> to_signed E r x = Some m ->
    lset l y (VS r m) = Some l' -> assign E P call (EVar y) x l s = Done l' s.
  Proof. intros. cbn [assign]. rewrite H. unfold bind. rewrite H0. cbn [lift]. unfold ret. rewrite H1. reflexivity. Qed.
  Lemma as_p : forall y l v x b l' s, lget l y = Some v -> is_null v <> None -> is_null x = Some b ->
    lset l y x = Some l' -> assign E P call (EVar y) x l s = Done l' s.
  Proof.
    intros. cbn [assign]. rewrite H. unfold bind. rewrite H1. cbn [lift]. unfold ret. rewrite H2.
    destruct v; cbn in H0; try congruence; reflexivity.
  Qed.
  Lemma as_star : forall y l v x b l' s, lget l y = Some (VRef v) -> is_null x = Some b ->
    lset l y (VRef x) = Some l' -> assign E P call (EStar y) x l s = Done l' s.
  Proof. intros. cbn [assign]. rewrite H. unfold bind. rewrite H0. cbn [lift]. unfold ret. rewrite H1. reflexivity. Qed.
  Lemma as_count : forall e l s a p l1 s1 x n c s2,
    ev e l s = Done (VCtx a p, l1) s1 -> to_unsigned E R64 x = Some n -> load_ctx a p s1 = Done c s1 ->
    store_ctx a p (mk_ctx n (c_hash c) (c_boff c) (c_block c)) s1 = Done tt s2 ->
    assign E P call (EField e "hash_count") x l s = Done l1 s2.
  Proof.
    intros. cbn [assign]. unfold bind. rewrite H. cbn [fst snd]. cbn. unfold bind, lift. rewrite H0.
    unfold ret. rewrite H1, H2. reflexivity.
  Qed.
  Lemma as_boff : forall e l s a p l1 s1 x n c s2,
    ev e l s = Done (VCtx a p, l1) s1 -> to_unsigned E RSz x = Some n -> load_ctx a p s1 = Done c s1 ->
    store_ctx a p (mk_ctx (c_count c) (c_hash c) n (c_block c)) s1 = Done tt s2 ->
    assign E P call (EField e "block_offset") x l s = Done l1 s2.
  Proof.
    intros. cbn [assign]. unfold bind. rewrite H. cbn [fst snd].
    change (String.eqb "block_offset" "hash_count") with false. change (String.eqb "block_offset" "block_offset") with true.
    cbv iota. rewrite H0. unfold lift, ret. rewrite H1, H2. reflexivity.
  Qed.
  Lemma as_index : forall e i l s v l1 s1 k l2 s2 n q x l3 s3,
    ev e l s = Done (v, l1) s1 -> ev i l1 s1 = Done (k, l2) s2 -> amount k = Some n -> index v n = Some q ->
    store_at E P l2 q x s2 = Done l3 s3 -> assign E P call (EIndex e i) x l s = Done l3 s3.
  Proof.
    intros. cbn [assign]. unfold bind. rewrite H. cbn [fst snd]. rewrite H0. cbn [fst snd]. rewrite H1. cbn [lift ret].
    unfold ret. rewrite H2. cbn [lift]. unfold ret. rewrite H3. reflexivity.
  Qed.

  (* ---------------------------------------------------------- statements *)

  Variable A : Type.
  Notation dn := (@den E P call fuel A).

  Lemma do_expr : forall e l (K : flow -> locals -> M A) s v l1 s1 R,
    ev e l s = Done (v, l1) s1 -> K FNext l1 s1 = R -> dn (SExpr e) l K s = R.
  Proof. intros. rewrite den_expr, H. exact H0. Qed.
  Lemma do_assign : forall y e l (K : flow -> locals -> M A) s v l1 s1 l2 s2 R,
    ev e l s = Done (v, l1) s1 -> assign E P call y v l1 s1 = Done l2 s2 -> K FNext l2 s2 = R ->
    dn (SAssign y e) l K s = R.
  Proof. intros. rewrite den_assign, H. cbn [fst snd]. rewrite H0. exact H1. Qed.
  Lemma do_op : forall o y e l (K : flow -> locals -> M A) s u l0 s0 v l1 s1 x l2 s2 R,
    ev y l s = Done (u, l0) s0 -> ev e l0 s0 = Done (v, l1) s1 -> binary E o u v = Some x ->
    assign E P call y x l1 s1 = Done l2 s2 -> K FNext l2 s2 = R -> dn (SOp o y e) l K s = R.
  Proof. intros. rewrite den_op, H. cbn [fst snd]. rewrite H0. cbn [fst snd]. rewrite H1, H2. exact H3. Qed.
  Lemma do_if : forall c a b l (K : flow -> locals -> M A) s v l1 s1 t R,
    ev c l s = Done (v, l1) s1 -> test v = Some t ->
    (t = true -> dn a l1 K s1 = R) -> (t = false -> dn b l1 K s1 = R) -> dn (SIf c a b) l K s = R.
  Proof. intros. rewrite den_if, H. cbn [fst snd]. rewrite H0. destruct t; auto. Qed.
  Lemma do_then : forall c a b l (K : flow -> locals -> M A) s t l1 s1 R,
    ev c l s = Done (truth t, l1) s1 -> t = true -> dn a l1 K s1 = R -> dn (SIf c a b) l K s = R.
  Proof. intros. subst t. eapply do_if; [eassumption|apply test_truth|auto|discriminate]. Qed.
  Lemma do_else : forall c a b l (K : flow -> locals -> M A) s t l1 s1 R,
    ev c l s = Done (truth t, l1) s1 -> t = false -> dn b l1 K s1 = R -> dn (SIf c a b) l K s = R.
  Proof. intros. subst t. eapply do_if; [eassumption|apply test_truth|discriminate|auto]. Qed.
  Lemma do_return : forall e l (K : flow -> locals -> M A) s v l1 s1 R,
    ev e l s = Done (v, l1) s1 -> K (FReturn v) l1 s1 = R -> dn (SReturn e) l K s = R.
  Proof. intros. rewrite den_return, H. exact H0. Qed.
End Ok.

Definition outs_of (n : nat) (l : locals) : list (option val) :=
  map (fun x => match snd x with VRef u => Some u | _ => None end) (firstn n l).

Lemma leave_plain : forall E f v v' l s, f_arrays f = [] -> convert E (fst (f_ret f)) (snd (f_ret f)) v = Some v' ->
  leave E f (FReturn v) l s = Done (v', outs_of (List.length (f_params f)) l) s.
Proof. intros. unfold leave, bind. rewrite H0, H. reflexivity. Qed.
Lemma leave_failed : forall E f fl l s, (forall v, fl <> FReturn v) -> leave E f fl l s = Undef.
Proof. intros E f [] l s H; try reflexivity. now destruct (H v). Qed.

(* ------------------------------------------------------------- memory and library calls *)

Lemma store_again : forall a p c c' s c0, get_obj s p = Some (OCtx a c0) ->
  store_ctx a p c' (set_obj p (OCtx a c) s) = Done tt (set_obj p (OCtx a c') s).
Proof. intros. erewrite store_ctx_ok by (eapply get_set_same; eassumption). now rewrite set_set. Qed.

Lemma store_again_frames : forall a p c c' s c0 fs, get_obj s p = Some (OCtx a c0) ->
  store_ctx a p c' (add_frames fs (set_obj p (OCtx a c) s)) = Done tt (add_frames fs (set_obj p (OCtx a c') s)).
Proof.
  intros. erewrite store_ctx_ok by (rewrite get_add_frames; eapply get_set_same; eassumption).
  now rewrite set_add_frames, set_set.
Qed.

Lemma ext_error : forall E P v d c l s k b, error_of d c = Some k -> is_null v = Some b ->
  external E P "libcerror_error_set" [v; VName d; VName c] l s = Done (VNull, l) (add_err (negb b) k s).
Proof. intros E P v d c l s k b H N. unfold external. cbn [String.eqb Ascii.eqb Bool.eqb]. unfold bind, lift. rewrite H. unfold ret. rewrite N. reflexivity. Qed.
Lemma ext_alloc_structure : forall E P t a y p l s s', find_assoc (p_types P) t = Some (a, y) ->
  allocate (OCtx a (junk_ctx E (alg_of a) (List.length (mem s)))) E s = Done p s' ->
  external E P "memory_allocate_structure" [VSizeof t] l s =
  Done (match p with Some q => VCtx a q | None => VNull end, l) s'.
Proof.
  intros E P t a y p l s s' H H0. unfold external. cbn [String.eqb Ascii.eqb Bool.eqb]. unfold bind, lift. rewrite H.
  unfold ret. cbn [fst snd]. rewrite H0. reflexivity.
Qed.
Lemma ext_free_structure : forall E P a p l s s', mfree p s = Done tt s' ->
  external E P "memory_free" [VCtx a p] l s = Done (VNull, l) s'.
Proof. intros. unfold external. cbn [String.eqb Ascii.eqb Bool.eqb]. unfold bind. rewrite H. reflexivity. Qed.
Lemma ext_clear_structure : forall E P t a y p l s s', find_assoc (p_types P) t = Some (a, y) ->
  store_ctx a p (clear_structure y) s = Done tt s' ->
  external E P "memory_set" [VCtx a p; VS R32 0; VSizeof t] l s = Done (VCtx a p, l) s'.
Proof.
  intros E P t a y p l s s' H H0. unfold external. cbn [String.eqb Ascii.eqb Bool.eqb]. unfold bind, lift. rewrite H.
  unfold ret. cbn [fst snd]. rewrite algid_eqb_refl. cbn [to_unsigned]. rewrite Z.mod_0_l by (apply Z.pow_nonzero; cbn; lia).
  cbn. rewrite H0. reflexivity.
Qed.
Lemma ext_copy_table : forall E P t a p l s n r ws y k x c h s',
  find_assoc (p_tables P) t = Some (r, ws) -> layout_of P a = Some y -> l_rank y = r ->
  word_count E r n = Some k -> take k ws = Some x -> load_ctx a p s = Done c s ->
  splice (c_hash c) 0 x = Some h -> store_ctx a p (mk_ctx (c_count c) h (c_boff c) (c_block c)) s = Done tt s' ->
  external E P "memory_copy" [VWords a p 0; VTab t 0; VU RSz n] l s = Done (VWords a p 0, l) s'.
Proof.
  intros E P t a p l s n r ws y k x c h s' H1 H2 H3 H4 H5 H6 H7 H8. unfold external. cbn [String.eqb Ascii.eqb Bool.eqb].
  cbn [words_at]. rewrite H1. unfold bind, lift, ret. cbn [fst snd N.to_nat skipn]. rewrite H4, H5.
  cbn [put_words]. unfold bind, lift, ret. rewrite H2, H3.
  replace (rank_eqb r r) with true by (destruct r; reflexivity). rewrite H6, H7, H8. reflexivity.
Qed.

Lemma ext_copy_block : forall E P a p i q n l s v x c b s',
  view q s = Done v s -> take n v = Some x -> load_ctx a p s = Done c s -> splice (c_block c) i x = Some b ->
  store_ctx a p (mk_ctx (c_count c) (c_hash c) (c_boff c) b) s = Done tt s' ->
  external E P "memory_copy" [VBlock a p i; VBytes q; VU RSz n] l s = Done (VBlock a p i, l) s'.
Proof.
  intros E P a p i q n l s v x c b s' H1 H2 H3 H4 H5. unfold external. cbn [String.eqb Ascii.eqb Bool.eqb].
  unfold bind, lift, ret. rewrite H1, H2, H3, H4, H5. reflexivity.
Qed.

(* ------------------------------------------------------------- tactics *)

Ltac tget :=
  first [ eassumption | eapply get_set_same; tget | apply get_new | rewrite get_add_frames; tget
        | rewrite get_set_other by (assumption || congruence); tget ].
Ltac tmem :=
  match goal with
  | |- load_ctx _ _ _ = _ => eapply load_ctx_ok; tget
  | |- store_ctx _ _ _ _ = _ =>
      first [eapply store_again_frames; tget | eapply store_again; tget | eapply store_ctx_ok; tget]
  end.

Ltac bypair := (match goal with |- ?x = _ => let y := eval cbv [lget lset find_assoc String.eqb Ascii.eqb Bool.eqb eqb] in x in change x with y end); reflexivity.
Ltac neqop := discriminate.

(* a literal as an unsigned number *)
Ltac tunum :=
  first
  [ apply tu_same
  | apply tu_ssize_max
  | refine (eq_trans (tu_int _ _ _ _ _ _) _);
      [reflexivity | clear; lia | cbv [Z.to_N]; reflexivity]
  | refine (eq_trans (tu_byte _ _ _ _) _); [clear; lia | cbv [Z.to_N]; reflexivity]
  | eassumption ].

Ltac tarith := cbv [arith bits]; fold bits; reflexivity.

Ltac tbin :=
  first
  [ refine (eq_trans (bin_mul_lit _ _ _ _ _ _) _); [tunum | clear; lia | cbv [N.mul Pos.mul Pos.add]; reflexivity]
  | apply bin_uu; [reflexivity|discriminate|discriminate|reflexivity]
  | eapply bin_us; [reflexivity|reflexivity|discriminate|discriminate|tunum|reflexivity]
  | eapply bin_su; [reflexivity|reflexivity|discriminate|discriminate|tunum|reflexivity]
  | eapply bin_ss; [reflexivity|reflexivity|discriminate|discriminate|reflexivity]
  | lazymatch goal with |- binary _ _ _ VNull = _ => reflexivity end ].

Ltac tev :=
  match goal with
  | |- eval _ _ _ (EVar _) _ _ = _ =>
      first [ eapply ev_var; [bypair | reflexivity] | eapply ev_arr; bypair | eapply ev_tab; [bypair | bypair] ]
  | |- eval _ _ _ (EStar _) _ _ = _ => eapply ev_star; bypair
  | |- eval _ _ _ (ERef _) _ _ = _ => eapply ev_ref; [bypair | reflexivity]
  | |- eval _ _ _ (EField _ "hash_count") _ _ = _ => eapply ev_count; [tev | tmem]
  | |- eval _ _ _ (EField _ "block_offset") _ _ = _ => eapply ev_boff; [tev | tmem]
  | |- eval _ _ _ (EField _ "hash_values") _ _ = _ => eapply ev_hash; tev
  | |- eval _ _ _ (EField _ "block") _ _ = _ => eapply ev_block; tev
  | |- eval _ _ _ (EIndex _ _) _ _ = _ => eapply ev_index; [tev | tev | reflexivity | reflexivity | try eassumption]
  | |- eval _ _ _ (EAddr (EIndex _ _)) _ _ = _ => eapply ev_addr; [tev | tev | reflexivity | reflexivity]
  | |- eval _ _ _ (ENot _) _ _ = _ => eapply ev_not; [tev | reflexivity]
  | |- eval _ _ _ (ECast false _ _) _ _ = _ => eapply ev_cast; [tev | eapply conv_u; try tunum]
  | |- eval _ _ _ (ECast true _ _) _ _ = _ => eapply ev_cast; [tev | eapply conv_s; try (apply ts_same || eassumption)]
  | |- eval _ _ _ (EBin _ _ _) _ _ = _ => eapply ev_bin; [tev | tev | try tbin]
  | |- eval _ _ _ (ECall _ _) _ _ = _ =>
      first [ eapply ev_ext; [tevs | reflexivity | ] | eapply ev_call; [tevs | reflexivity | | ] ]
  | |- eval _ _ _ _ _ _ = _ => reflexivity
  | |- _ => idtac
  end
with tevs :=
  match goal with
  | |- evs _ _ _ [] _ _ = _ => apply evs_nil
  | |- evs _ _ _ (_ :: _) _ _ = _ => eapply evs_cons; [tev | tevs]
  | |- _ => idtac
  end.

(* continue after a statement *)
Ltac tk :=
  match goal with
  | H : ?K = _ |- ?K _ _ _ = _ => is_var K; rewrite H; clear H; cbv beta iota
  | H : ?K = _ |- ?K _ _ = _ => is_var K; rewrite H; clear H; cbv beta
  end.

Ltac tas :=
  match goal with
  | |- assign _ _ _ (EVar _) _ _ _ = _ =>
      first [ eapply as_p; [bypair | discriminate | reflexivity | bypair]
            | eapply as_u; [bypair | tunum | bypair]
            | eapply as_s; [bypair | first [apply ts_same | reflexivity] | bypair] ]
  | |- assign _ _ _ (EStar _) _ _ _ = _ => eapply as_star; [bypair | reflexivity | bypair]
  | |- assign _ _ _ (EField _ "hash_count") _ _ _ = _ => eapply as_count; [tev | tunum | tmem | tmem ]
  | |- assign _ _ _ (EField _ "block_offset") _ _ _ = _ => eapply as_boff; [tev | tunum | tmem | tmem ]
  | |- assign _ _ _ (EIndex _ _) _ _ _ = _ => eapply as_index; [tev | tev | reflexivity | reflexivity | try eassumption ]
  end.

Ltac tst :=
  match goal with
  | |- den (SSeq _ _) _ _ _ = _ => apply den_seq_named; intros ? ? ? ?
  | |- den SSkip _ _ _ = _ => refine (eq_trans (den_skip _ _ _ _ _ _ _ _) _)
  | |- den (SExpr (ECall "libcerror_error_set" _)) _ _ _ = _ =>
      eapply do_expr; [eapply ev_ext; [tevs | reflexivity | eapply ext_error; reflexivity] | ]
  | |- den (SExpr _) _ _ _ = _ => eapply do_expr; [solve [tev] | ]
  | |- den (SAssign _ _) _ _ _ = _ => eapply do_assign; [solve [tev] | solve [tas] | ]
  | |- den (SOp _ _ _) _ _ _ = _ => eapply do_op; [solve [tev] | solve [tev] | solve [tbin] | solve [tas] | ]
  | |- den (SIf _ _ _) _ _ _ = _ =>
      (eapply do_then; [solve [tev] | reflexivity | ]) || (eapply do_else; [solve [tev] | reflexivity | ])
  | |- den (SReturn _) _ _ _ = _ => eapply do_return; [solve [tev] | ]
  | |- den SGoto _ _ _ = _ => refine (eq_trans (den_goto _ _ _ _ _ _ _ _) _)
  | |- _ => tk
  end.

Lemma el_nil : forall E P call l s, enter_locals E P call [] l s = Done l s.
Proof. reflexivity. Qed.
Lemma el_ptr : forall E P call x e t l s v R,
  eval E P call e l s = Done (v, l) s -> enter_locals E P call t (l ++ [(x, v)]) s = R ->
  enter_locals E P call ((x, CPtr, e) :: t) l s = R.
Proof. intros. cbn [enter_locals]. unfold bind. rewrite H. exact H0. Qed.
Lemma el_u : forall E P call x r e t l s v n R,
  eval E P call e l s = Done (v, l) s -> to_unsigned E r v = Some n ->
  enter_locals E P call t (l ++ [(x, VU r n)]) s = R ->
  enter_locals E P call ((x, CInt false r, e) :: t) l s = R.
Proof. intros. cbn [enter_locals]. unfold bind. rewrite H. cbn [fst snd convert]. rewrite H0. exact H1. Qed.
Lemma el_s : forall E P call x r e t l s v n R,
  eval E P call e l s = Done (v, l) s -> to_signed E r v = Some n ->
  enter_locals E P call t (l ++ [(x, VS r n)]) s = R ->
  enter_locals E P call ((x, CInt true r, e) :: t) l s = R.
Proof. intros. cbn [enter_locals]. unfold bind. rewrite H. cbn [fst snd convert]. rewrite H0. exact H1. Qed.
Lemma ts_zero : forall E r r', to_signed E r (VS r' 0) = Some 0%Z.
Proof.
  intros E r r'. cbn [to_signed]. destruct (rank_eqb r r'); [reflexivity|].
  rewrite Z.mod_0_l by (apply Z.pow_nonzero; lia).
  destruct (Z.ltb_spec 0 (2 ^ Z.of_N (bits E r - 1))); [reflexivity|].
  assert (0 < 2 ^ Z.of_N (bits E r - 1))%Z by (apply Z.pow_pos_nonneg; lia). lia.
Qed.

Ltac tloc :=
  match goal with
  | |- enter_locals _ _ _ ?d ?l _ = _ =>
      let d' := eval hnf in d in let l' := eval cbv [app] in l in change d with d'; change l with l'
  end;
  match goal with
  | |- enter_locals _ _ _ [] _ _ = _ => apply el_nil
  | |- enter_locals _ _ _ ((_, CPtr, _) :: _) _ _ = _ => eapply el_ptr; [tev | tloc]
  | |- enter_locals _ _ _ ((_, CInt false _, _) :: _) _ _ = _ => eapply el_u; [tev | tunum | tloc]
  | |- enter_locals _ _ _ ((_, CInt true _, _) :: _) _ _ = _ => eapply el_s; [tev | apply ts_zero | tloc]
  end.

(* a comparison of numbers *)
Ltac tcmp :=
  match goal with
  | |- (_ <? _) = true => apply N.ltb_lt
  | |- (_ <? _) = false => apply N.ltb_ge
  | |- (_ <=? _) = true => apply N.leb_le
  | |- (_ <=? _) = false => apply N.leb_gt
  | |- (_ =? _) = true => apply N.eqb_eq
  | |- (_ =? _) = false => apply N.eqb_neq
  | |- (_ =? _)%Z = true => apply Z.eqb_eq
  | |- (_ =? _)%Z = false => apply Z.eqb_neq
  | |- negb _ = true => apply negb_true_iff; tcmp
  | |- negb _ = false => apply negb_false_iff; tcmp
  end.
Ltac tthen := eapply do_then; [solve [tev] | tcmp | ].
Ltac telse := eapply do_else; [solve [tev] | tcmp | ].

Lemma pa_nil : forall E, bind_params E [] [] = Some [].
Proof. reflexivity. Qed.
Lemma pa_ptr : forall E x t v w l, bind_params E t w = Some l -> bind_params E ((x, CPtr) :: t) (v :: w) = Some ((x, v) :: l).
Proof. intros. cbn [bind_params]. rewrite H. reflexivity. Qed.
Lemma pa_u : forall E x r t n w l, bind_params E t w = Some l ->
  bind_params E ((x, CInt false r) :: t) (VU r n :: w) = Some ((x, VU r n) :: l).
Proof. intros. cbn [bind_params convert]. rewrite tu_same, H. reflexivity. Qed.

Ltac tpar :=
  match goal with |- bind_params _ ?d _ = _ => let d' := eval hnf in d in change d with d' end;
  match goal with
  | |- bind_params _ [] _ = _ => apply pa_nil
  | |- bind_params _ ((_, CPtr) :: _) _ = _ => eapply pa_ptr; tpar
  | |- bind_params _ ((_, CInt false _) :: _) _ = _ => eapply pa_u; tpar
  end.
