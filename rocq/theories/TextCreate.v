(* The text of byte_size_string_create does what ToolStrings.v says. *)
From Coq Require Import Arith NArith ZArith List Lia Bool String.
From Verif Require Import Words Spec Machine Context Hash ToolStrings CText TextAll TextTools ToolCalls.
From Verif Require Import Vocab MachineFacts WordFacts ContextFacts DigestFacts HashFacts HmacFacts TextFacts TextContext TextUpdate TextLoops TextSteps TextHash TextHmac
  TextDigest TextSizes.
Import ListNotations.
Open Scope string_scope.
Open Scope list_scope.
Open Scope N_scope.

(* ------------------------------------------------------------- storing into the target *)

Lemma replace_same : forall A (l : list A) i x, nth_error l i = Some x -> replace l i x = l.
Proof. induction l as [|y l IH]; intros [|i] x H; cbn in *; try discriminate; [congruence|]. now rewrite IH. Qed.

Lemma write_same : forall p v s s1, view p s = Done v s -> mem s1 = mem s -> write p v s1 = Done tt s1.
Proof.
  intros p v s s1 H M. unfold view in H. destruct (get_obj s (fst p)) as [[l| |]|] eqn:G; try discriminate.
  destruct (snd p <=? N.of_nat (List.length l)) eqn:L; [|discriminate]. injection H as <-. apply N.leb_le in L.
  unfold write. assert (G1 : get_obj s1 (fst p) = Some (OBytes l)) by (unfold get_obj in *; rewrite M; exact G). rewrite G1.
  unfold splice. rewrite skipn_length at 1.
  replace (snd p + N.of_nat (List.length l - N.to_nat (snd p)) <=? N.of_nat (List.length l)) with true by (symmetry; apply N.leb_le; lia).
  rewrite skipn_length. replace (N.to_nat (snd p) + (List.length l - N.to_nat (snd p)))%nat with (List.length l) by lia.
  rewrite skipn_all, app_nil_r, firstn_skipn. unfold put_obj. unfold get_obj in G1.
  destruct (nth_error (mem s1) (fst p)) as [c|] eqn:C; [|discriminate]. destruct (live c) eqn:V; [|discriminate]. injection G1 as G1.
  rewrite <- G1. replace (mk_cell true (knd c) (content c)) with c by (destruct c; cbn in *; congruence).
  rewrite replace_same by exact C. destruct s1; reflexivity.
Qed.

Lemma write_error : forall p t e k s s1, write p t s = Done tt s1 ->
  (error_set e k ;;; write p t) s = error_set e k s1.
Proof.
  intros p t e k s s1 H. unfold bind, error_set. unfold write in *. unfold get_obj in *. cbn [mem].
  destruct (nth_error (mem s) (fst p)) as [c|] eqn:C; [|discriminate]. destruct (live c) eqn:V; [|discriminate].
  destruct (content c) as [l| |]; try discriminate. destruct (splice l (snd p) t) as [l'|]; [|discriminate].
  unfold put_obj in *. cbn [mem]. rewrite C, V in *. injection H as <-. reflexivity.
Qed.

Lemma write_error_undef : forall p t e k s, write p t s = Undef -> (error_set e k ;;; write p t) s = Undef.
Proof.
  intros p t e k s H. unfold bind, error_set. unfold write in *. unfold get_obj in *. cbn [mem].
  destruct (nth_error (mem s) (fst p)) as [c|] eqn:C; [|reflexivity]. destruct (live c) eqn:V; [|reflexivity].
  destruct (content c) as [l| |]; try reflexivity. destruct (splice l (snd p) t) as [l'|]; [|reflexivity].
  unfold put_obj in *. cbn [mem]. rewrite C, V in *. discriminate.
Qed.

(* ------------------------------------------------------------- the units *)

Lemma word64_int : forall z k, (- 2 ^ 31 <= z < 2 ^ 31)%Z -> (0 <= k < 2 ^ 31)%Z -> (z =? k)%Z = (word64 z =? Z.to_N k).
Proof.
  intros z k Hz Hk. unfold word64. destruct (Z_lt_le_dec z 0) as [H|H].
  - replace (z mod 2 ^ 64)%Z with (z + 2 ^ 64)%Z by (symmetry; rewrite <- (Z_mod_plus_full z 1), Z.mod_small; lia).
    destruct (Z.eqb_spec z k), (N.eqb_spec (Z.to_N (z + 2 ^ 64)) (Z.to_N k)); lia.
  - rewrite Z.mod_small by lia. destruct (Z.eqb_spec z k), (N.eqb_spec (Z.to_N z) (Z.to_N k)); lia.
Qed.
Lemma word64_lt : forall z, word64 z < 2 ^ 64.
Proof. intros z. unfold word64. pose proof (Z.mod_pos_bound z (2 ^ 64)). lia. Qed.
Lemma tu_word64 : forall E z, to_unsigned E R64 (VS R32 z) = Some (word64 z).
Proof. reflexivity. Qed.

Lemma upto8 : forall k, k <= 8 -> In k [0; 1; 2; 3; 4; 5; 6; 7; 8].
Proof. intros k H. cbn [In]. lia. Qed.

Notation FS := (EVar "factored_size").
Notation UN := (EVar "units").
Notation enough_left := (EBin OGe FS (ECast false R64 UN)).
Notation loop_body := (SAssign (EVar "last_factored_size") FS ;- SOp ODiv FS UN ;- SOp OAdd (EVar "factor") (EInt 1)).

Section Create.
  Variables (E : env) (sg vb : bool) (lp : option Z) (sc : bool) (fuel : nat) (p : ptr) (len size : N) (z : Z) (e : bool).
  Local Notation P := (tools_text sg vb).
  Local Notation call := (tool_call E lp sc).
  Local Notation ev := (eval E P call).
  Variable T : Type.
  Local Notation dn := (@den E P call fuel T).
  Local Notation u := (word64 z).
  Hypothesis Hz : (- 2 ^ 31 <= z < 2 ^ 31)%Z.
  Hypothesis Hlen : len < size_mod E.
  Hypothesis Hsize : size < 2 ^ 64.

  (* factor_string, units_string, print_count, factored_size, last_factored_size, factor, remainder, decimal_point *)
  Definition kl (a b : val) (c : Z) (fs ls : N) (f r d : Z) : locals :=
    [("byte_size_string", VChars p); ("byte_size_string_length", VU RSz len); ("size", VU R64 size); ("units", VS R32 z); ("error", v_error e);
     ("factor_string", a); ("units_string", b); ("print_count", VS RSz c); ("factored_size", VU R64 fs); ("last_factored_size", VU R64 ls);
     ("factor", VS R8 f); ("remainder", VS R8 r); ("decimal_point", VS R32 d)].

  Lemma left_run : forall a b c fs ls f r d s, ev enough_left (kl a b c fs ls f r d) s = Done (truth (u <=? fs), kl a b c fs ls f r d) s.
  Proof. reflexivity. Qed.

  Lemma add_factor : forall a b c fs ls f r d s (K : flow -> locals -> M T), (-128 <= f < 128)%Z ->
    exists f', (-128 <= f' < 128)%Z /\ (0 <= f < 127 -> f' = f + 1)%Z /\
    dn (SOp OAdd (EVar "factor") (EInt 1)) (kl a b c fs ls f r d) K s = K FNext (kl a b c fs ls f' r d) s.
  Proof.
    intros a b c fs ls f r d s K Hf.
    assert (X : exists f', (-128 <= f' < 128)%Z /\ (0 <= f < 127 -> f' = f + 1)%Z /\ to_signed E R8 (VS R32 (f + 1)) = Some f').
    { cbn [to_signed rank_eqb]. change (2 ^ Z.of_N (bits E R8))%Z with 256%Z. change (2 ^ Z.of_N (bits E R8 - 1))%Z with 128%Z.
      eexists. split; [|split; [|reflexivity]].
      - pose proof (Z.mod_pos_bound (f + 1) 256). destruct (Z.ltb_spec ((f + 1) mod 256) 128); lia.
      - intros Q. rewrite Z.mod_small by lia. destruct (Z.ltb_spec (f + 1) 128); lia. }
    destruct X as (f' & X1 & X2 & X3). exists f'. split; [exact X1|]. split; [exact X2|]. rewrite den_op.
    change (ev (EVar "factor") (kl a b c fs ls f r d) s) with (Done (VS R8 f, kl a b c fs ls f r d) s). cbn [fst snd].
    change (ev (EInt 1) (kl a b c fs ls f r d) s) with (Done (VS R32 1, kl a b c fs ls f r d) s). cbn [fst snd].
    cbn [binary usual promote rank_max arith]. rewrite in_range_int by lia. cbn [assign].
    change (lget (kl a b c fs ls f r d) "factor") with (Some (VS R8 f)). unfold bind. rewrite X3. reflexivity.
  Qed.

  Lemma body_run : forall a b c fs ls f r d s (K : flow -> locals -> M T), (-128 <= f < 128)%Z ->
    exists f', (-128 <= f' < 128)%Z /\ (0 <= f < 127 -> f' = f + 1)%Z /\
    dn loop_body (kl a b c fs ls f r d) K s = if u =? 0 then Undef else K FNext (kl a b c (fs / u) fs f' r d) s.
  Proof.
    intros a b c fs ls f r d s K Hf. destruct (add_factor a b c (fs / u) fs f r d s K Hf) as (f' & F1 & F2 & F3).
    exists f'. split; [exact F1|]. split; [exact F2|]. rewrite den_seq.
    change (dn (SAssign (EVar "last_factored_size") FS) (kl a b c fs ls f r d) ?k s) with (k FNext (kl a b c fs fs f r d) s). cbv beta iota.
    rewrite den_seq, den_op. change (ev FS (kl a b c fs fs f r d) s) with (Done (VU R64 fs, kl a b c fs fs f r d) s). cbn [fst snd].
    change (ev UN (kl a b c fs fs f r d) s) with (Done (VS R32 z, kl a b c fs fs f r d) s). cbn [fst snd].
    change (binary E ODiv (VU R64 fs) (VS R32 z)) with (arith E ODiv (PU R64 fs u)). cbn [arith].
    destruct (u =? 0); [reflexivity|]. exact F3.
  Qed.

  Lemma forever : forall a b c r d s (K : flow -> locals -> M T), u = 1 -> forall n fs ls f, 1 <= fs -> (-128 <= f < 128)%Z ->
    @dloop E P call fuel T n enough_left loop_body (kl a b c fs ls f r d) K s = Undef.
  Proof.
    intros a b c r d s K Hu. induction n as [|n IH]; intros fs ls f Hfs Hf;
      assert (C : ev enough_left (kl a b c fs ls f r d) s = Done (truth true, kl a b c fs ls f r d) s)
        by (rewrite left_run, Hu; replace (1 <=? fs) with true by (symmetry; apply N.leb_le; lia); reflexivity).
    { unfold dloop. cbn [loop]. unfold bind. rewrite C. reflexivity. }
    rewrite dloop_step by exact C.
    match goal with |- dn _ _ ?k _ = _ => destruct (body_run a b c fs ls f r d s k Hf) as (f' & F1 & _ & ->) end.
    rewrite Hu at 1. change (1 =? 0) with false. cbv iota. apply IH; [|exact F1]. rewrite Hu, N.div_1_r. exact Hfs.
  Qed.
  Lemma forever_model : forall f fs ls k, 1 <= fs -> factor_loop f 1 fs ls k = None.
  Proof.
    induction f as [|f IH]; intros fs ls k H; cbn [factor_loop]; replace (fs <? 1) with false by (symmetry; apply N.ltb_ge; lia); [reflexivity|].
    change (1 =? 0) with false. cbv iota. apply IH. rewrite N.div_1_r. exact H.
  Qed.

  Lemma ends : forall a b c r d s (K : flow -> locals -> M T), 2 <= u -> forall g n fs ls k, (g <= n)%nat -> fs < 2 ^ N.of_nat g -> k + N.of_nat g <= 100 ->
    @dloop E P call fuel T n enough_left loop_body (kl a b c fs ls (Z.of_N k) r d) K s =
    match factor_loop g u fs ls k with Some (fs, ls, k) => K FNext (kl a b c fs ls (Z.of_N k) r d) s | None => Undef end.
  Proof.
    intros a b c r d s K Hu. induction g as [|g IH]; intros n fs ls k Hn Hfs Hk; cbn [factor_loop].
    - change (2 ^ N.of_nat 0) with 1 in Hfs. replace (fs <? u) with true by (symmetry; apply N.ltb_lt; lia).
      rewrite dloop_end by (rewrite left_run; replace (u <=? fs) with false by (symmetry; apply N.leb_gt; lia); reflexivity). reflexivity.
    - destruct (N.ltb_spec fs u) as [H|H].
      + rewrite dloop_end by (rewrite left_run; replace (u <=? fs) with false by (symmetry; apply N.leb_gt; lia); reflexivity). reflexivity.
      + replace (u =? 0) with false by (symmetry; apply N.eqb_neq; lia). destruct n as [|n]; [lia|].
        rewrite dloop_step by (rewrite left_run; replace (u <=? fs) with true by (symmetry; apply N.leb_le; lia); reflexivity).
        match goal with |- dn _ _ ?kk _ = _ => destruct (body_run a b c fs ls (Z.of_N k) r d s kk ltac:(lia)) as (f' & _ & F2 & ->) end.
        replace (u =? 0) with false by (symmetry; apply N.eqb_neq; lia).
        rewrite F2 by lia. replace (Z.of_N k + 1)%Z with (Z.of_N (k + 1)) by lia. apply IH; [lia| |lia].
        apply N.div_lt_upper_bound; [lia|]. rewrite Nat2N.inj_succ, N.pow_succ_r' in Hfs. apply N.lt_le_trans with (2 * 2 ^ N.of_nat g); [exact Hfs|].
        apply N.mul_le_mono_r. exact Hu.
  Qed.

  Lemma loop_run : forall a b c r d s (K : flow -> locals -> M T) n, (65 <= n)%nat -> u <= size ->
    @dloop E P call fuel T n enough_left loop_body (kl a b c size 0 0 r d) K s =
    match factor_loop 65 u size 0 0 with Some (fs, ls, k) => K FNext (kl a b c fs ls (Z.of_N k) r d) s | None => Undef end.
  Proof.
    intros a b c r d s K n H65 Hus.
    destruct (N.eq_dec u 0) as [H0|H0]; [|destruct (N.eq_dec u 1) as [H1|H1]].
    - rewrite H0 in *. cbn [factor_loop]. replace (size <? 0) with false by (symmetry; apply N.ltb_ge; lia). change (0 =? 0) with true. cbv iota.
      destruct n as [|n]; [lia|].
      rewrite dloop_step by (rewrite left_run, H0; replace (0 <=? size) with true by (symmetry; apply N.leb_le; lia); reflexivity).
      match goal with |- dn _ _ ?kk _ = _ => destruct (body_run a b c size 0 0 r d s kk ltac:(lia)) as (f' & _ & _ & ->) end.
      rewrite H0. reflexivity.
    - rewrite H1 in *. rewrite forever_model by exact Hus. apply forever; [exact H1|exact Hus|lia].
    - apply (ends a b c r d s K ltac:(lia) 65%nat n size 0 0 H65); [|lia]. eapply N.lt_trans; [exact Hsize|]. reflexivity.
  Qed.

  Definition v_text (t : option string) : val := match t with Some t => VText t | None => VNull end.
  Definition unit_text : option string := if (size <? 1024) || (u =? 1000) then Some "B" else if u =? 1024 then Some "iB" else None.
  Definition units_part : stmt :=
    SIf (ELogOr (EBin OLt (EVar "size") (EInt 1024)) (EBin OEq (EVar "units") (EInt 1000))) (
      SAssign (EVar "units_string") (EText "B"))
    (
      SIf (EBin OEq (EVar "units") (EInt 1024)) (
        SAssign (EVar "units_string") (EText "iB")) SSkip).
  Lemma units_part_run : forall a c fs ls f r d s (K : flow -> locals -> M T),
    dn units_part (kl a VNull c fs ls f r d) K s = K FNext (kl a (v_text unit_text) c fs ls f r d) s.
  Proof.
    intros a c fs ls f r d s K. unfold units_part, unit_text.
    assert (C : ev (ELogOr (EBin OLt (EVar "size") (EInt 1024)) (EBin OEq (EVar "units") (EInt 1000))) (kl a VNull c fs ls f r d) s =
                Done (truth ((size <? 1024) || (z =? 1000)%Z), kl a VNull c fs ls f r d) s) by (apply ev_or; reflexivity).
    rewrite (decided _ _ _ _ _ _ _ _ _ _ _ _ C), (word64_int z 1000) by lia. change (Z.to_N 1000) with 1000.
    destruct ((size <? 1024) || (u =? 1000)); [reflexivity|].
    assert (C2 : ev (EBin OEq (EVar "units") (EInt 1024)) (kl a VNull c fs ls f r d) s = Done (truth (z =? 1024)%Z, kl a VNull c fs ls f r d) s) by reflexivity.
    rewrite (decided _ _ _ _ _ _ _ _ _ _ _ _ C2), (word64_int z 1024) by lia. change (Z.to_N 1024) with 1024.
    destruct (u =? 1024); reflexivity.
  Qed.

  Definition factor_part : stmt :=
    SIf enough_left (
      SWhile enough_left loop_body ;-
      SIf (EBin OLt FS (EInt 10)) (
        SOp OMod (EVar "last_factored_size") UN ;-
        SAssign (EVar "remainder") (ECast true R8 (EBin ODiv (EVar "last_factored_size") (EInt 100)))) SSkip) SSkip.
  Definition small_left (fs : N) : bool := (u <=? size) && (fs <? 10).
  Lemma factor_part_run : forall a b c d s (K : flow -> locals -> M T), (65 <= fuel)%nat ->
    dn factor_part (kl a b c size 0 0 (-1) d) K s =
    match factor_loop 65 u size 0 0 with
    | Some (fs, ls, k) => K FNext (kl a b c fs (if small_left fs then ls mod u else ls) (Z.of_N k) (if small_left fs then to_int8 ((ls mod u) / 100) else (-1)%Z) d) s
    | None => Undef
    end.
  Proof.
    intros a b c d s K H65. unfold factor_part. rewrite (decided _ _ _ _ _ _ _ _ _ _ _ _ (left_run a b c size 0 0 (-1) d s)). unfold small_left.
    destruct (N.leb_spec u size) as [H|H].
    - rewrite den_seq, den_while, loop_run by assumption. destruct (factor_loop 65 u size 0 0) as [[[fs ls] k]|] eqn:F; [|reflexivity].
      assert (C : ev (EBin OLt FS (EInt 10)) (kl a b c fs ls (Z.of_N k) (-1) d) s = Done (truth (fs <? 10), kl a b c fs ls (Z.of_N k) (-1) d) s) by reflexivity.
      rewrite (decided _ _ _ _ _ _ _ _ _ _ _ _ C). cbn [andb]. destruct (fs <? 10); [|reflexivity].
      assert (U0 : u =? 0 = false).
      { destruct (u =? 0) eqn:Q; [|reflexivity]. exfalso. apply N.eqb_eq in Q. rewrite Q in F. cbn [factor_loop] in F.
        destruct (N.ltb_spec size 0); [lia|]. discriminate. }
      rewrite den_seq, den_op. change (ev (EVar "last_factored_size") (kl a b c fs ls (Z.of_N k) (-1) d) s) with (Done (VU R64 ls, kl a b c fs ls (Z.of_N k) (-1) d) s). cbn [fst snd].
      change (ev UN (kl a b c fs ls (Z.of_N k) (-1) d) s) with (Done (VS R32 z, kl a b c fs ls (Z.of_N k) (-1) d) s). cbn [fst snd].
      change (binary E OMod (VU R64 ls) (VS R32 z)) with (arith E OMod (PU R64 ls u)). cbn [arith]. rewrite U0.
      change (assign E P call (EVar "last_factored_size") (VU R64 (ls mod u)) (kl a b c fs ls (Z.of_N k) (-1) d) s) with (Done (kl a b c fs (ls mod u) (Z.of_N k) (-1) d) s). cbv iota.
      rewrite den_assign.
      assert (V : ev (ECast true R8 (EBin ODiv (EVar "last_factored_size") (EInt 100))) (kl a b c fs (ls mod u) (Z.of_N k) (-1) d) s =
                  Done (VS R8 (to_int8 ((ls mod u) / 100)), kl a b c fs (ls mod u) (Z.of_N k) (-1) d) s).
      { change (ev (ECast true R8 (EBin ODiv (EVar "last_factored_size") (EInt 100))) (kl a b c fs (ls mod u) (Z.of_N k) (-1) d) s)
          with ((x <- lift (option_map (VS R8) (to_signed E R8 (VU R64 ((ls mod u) / 100)))) ;; ret (x, kl a b c fs (ls mod u) (Z.of_N k) (-1) d)) s).
        cbn [to_signed option_map lift]. unfold bind, ret. do 3 f_equal. unfold to_int8.
        change (2 ^ Z.of_N (bits E R8))%Z with 256%Z. change (2 ^ Z.of_N (bits E R8 - 1))%Z with 128%Z.
        rewrite (N2Z.inj_mod _ 256). change (Z.of_N 256) with 256%Z. generalize ((ls mod u) / 100). intros n.
        destruct (Z.ltb_spec (Z.of_N n mod 256) 128), (N.ltb_spec (n mod 256) 128); try reflexivity; pose proof (N2Z.inj_mod n 256); change (Z.of_N 256) with 256%Z in *; lia. }
      rewrite V. reflexivity.
    - rewrite den_skip. change 65%nat with (S 64). cbn [factor_loop]. replace (size <? u) with true by (symmetry; apply N.ltb_lt; exact H). reflexivity.
  Qed.

  Definition factor_text_of (k : N) : string := nth (N.to_nat k) [""; "K"; "M"; "G"; "T"; "P"; "E"; "Z"; "Y"] "".
  Definition switch_part : stmt :=
    SSwitch (EVar "factor") [
      ([0]%Z, SAssign (EVar "factor_string") (EText "") ;- SBreak);
      ([1]%Z, SAssign (EVar "factor_string") (EText "K") ;- SBreak);
      ([2]%Z, SAssign (EVar "factor_string") (EText "M") ;- SBreak);
      ([3]%Z, SAssign (EVar "factor_string") (EText "G") ;- SBreak);
      ([4]%Z, SAssign (EVar "factor_string") (EText "T") ;- SBreak);
      ([5]%Z, SAssign (EVar "factor_string") (EText "P") ;- SBreak);
      ([6]%Z, SAssign (EVar "factor_string") (EText "E") ;- SBreak);
      ([7]%Z, SAssign (EVar "factor_string") (EText "Z") ;- SBreak);
      ([8]%Z, SAssign (EVar "factor_string") (EText "Y") ;- SBreak)].
  Lemma switch_run : forall b c fs ls k r d s (K : flow -> locals -> M T), k <= 8 ->
    dn switch_part (kl VNull b c fs ls (Z.of_N k) r d) K s = K FNext (kl (VText (factor_text_of k)) b c fs ls (Z.of_N k) r d) s.
  Proof.
    intros b c fs ls k r d s K Hk. unfold switch_part.
    rewrite (den_switch _ _ _ _ _ _ _ _ _ _ (VS R8 (Z.of_N k)) (Z.of_N k)); [|reflexivity|reflexivity|repeat constructor; eexists; reflexivity].
    apply upto8 in Hk. cbn [In] in Hk.
    repeat (destruct Hk as [<-|Hk]; [reflexivity|]). contradiction.
  Qed.

  Definition cap_part : stmt := SIf (EBin OGt (EVar "remainder") (EInt 9)) (SAssign (EVar "remainder") (EInt 9)) SSkip.
  Lemma cap_run : forall a b c fs ls f r d s (K : flow -> locals -> M T),
    dn cap_part (kl a b c fs ls f r d) K s = K FNext (kl a b c fs ls f (if (9 <? r)%Z then 9%Z else r) d) s.
  Proof.
    intros. unfold cap_part.
    assert (C : ev (EBin OGt (EVar "remainder") (EInt 9)) (kl a b c fs ls f r d) s = Done (truth (9 <? r)%Z, kl a b c fs ls f r d) s) by reflexivity.
    rewrite (decided _ _ _ _ _ _ _ _ _ _ _ _ C). destruct (9 <? r)%Z; reflexivity.
  Qed.

  Definition dchar (d : Z) : val := match convert E sg R8 (VS R32 d) with Some v => v | None => VNull end.
  Lemma dchar_run : forall a b c fs ls f r d s, ev (EChar (EVar "decimal_point")) (kl a b c fs ls f r d) s = Done (dchar d, kl a b c fs ls f r d) s.
  Proof. intros. unfold dchar. cbn [eval]. unfold bind, ret. change (lget (kl a b c fs ls f r d) "decimal_point") with (Some (VS R32 d)). cbn [fst snd tools_text p_char]. destruct sg; reflexivity. Qed.
  Lemma dchar_print : forall d, to_unsigned E R8 (dchar d) = Some (Z.to_N (d mod 256)).
  Proof.
    intros d. unfold dchar. pose proof (Z.mod_pos_bound d 256). destruct sg; cbn [convert to_signed to_unsigned rank_eqb option_map].
    - change (2 ^ Z.of_N (bits E R8))%Z with 256%Z. change (2 ^ Z.of_N (bits E R8 - 1))%Z with 128%Z. f_equal. f_equal.
      destruct (Z.ltb_spec (d mod 256) 128); [apply Z.mod_mod; lia|]. rewrite <- (Z_mod_plus_full _ 1).
      replace (d mod 256 - 256 + 1 * 256)%Z with (d mod 256)%Z by lia. apply Z.mod_mod. lia.
    - change (2 ^ Z.of_N (bits E R8))%Z with 256%Z. f_equal; lia.
  Qed.

  Definition format1 : string := "%{PRIu64}%{PRIc_SYSTEM}%{PRIu8} %{PRIs_SYSTEM}%{PRIs_SYSTEM}".
  Definition format2 : string := "%{PRIu64} %{PRIs_SYSTEM}%{PRIs_SYSTEM}".
  Lemma print1 : forall fs d r a b, (0 <= r)%Z ->
    print_format E format1 None [VU R64 fs; dchar d; VS R8 r; VText a; v_text b] =
    option_map (fun b => print_decimal fs ++ ([Z.to_N (d mod 256)] ++ print_decimal (Z.to_N r)) ++ [32] ++ codes a ++ codes b) b.
  Proof.
    intros fs d r a b Hr. cbn [format1 print_format Ascii.eqb String.append print_value String.eqb Bool.eqb].
    change (print_value E "PRIu64" (VU R64 fs)) with (Some (print_decimal fs)).
    change (print_value E "PRIc_SYSTEM" (dchar d)) with (option_map (fun n => [n]) (to_unsigned E R8 (dchar d))).
    change (print_value E "PRIu8" (VS R8 r)) with (if (0 <=? r)%Z then Some (print_decimal (Z.to_N r)) else None).
    change (print_value E "PRIs_SYSTEM" (VText a)) with (Some (codes a)).
    rewrite dchar_print. replace (0 <=? r)%Z with true by (symmetry; apply Z.leb_le; exact Hr).
    destruct b as [b|]; [|reflexivity]. change (print_value E "PRIs_SYSTEM" (v_text (Some b))) with (Some (codes b)).
    cbn [v_text obind option_map]. rewrite app_nil_r, <- app_assoc. reflexivity.
  Qed.
  Lemma print2 : forall fs a b,
    print_format E format2 None [VU R64 fs; VText a; v_text b] =
    option_map (fun b => print_decimal fs ++ [] ++ [32] ++ codes a ++ codes b) b.
  Proof.
    intros fs a b. cbn [format2 print_format Ascii.eqb String.append print_value String.eqb Bool.eqb].
    change (print_value E "PRIu64" (VU R64 fs)) with (Some (print_decimal fs)).
    change (print_value E "PRIs_SYSTEM" (VText a)) with (Some (codes a)).
    destruct b as [b|]; [|reflexivity]. change (print_value E "PRIs_SYSTEM" (v_text (Some b))) with (Some (codes b)).
    cbn [v_text obind option_map]. rewrite app_nil_r. reflexivity.
  Qed.

  (* what printing and storing does *)
  Definition printed (v : list N) (t : option (list N)) (l : Z -> locals) (K : flow -> locals -> M T) (s : state) : outcome T :=
    match t with
    | None => Undef
    | Some t => match snprintf v len t with
                | None => Undef
                | Some (c, t1) => match write p t1 s with Done _ s1 => K FNext (l c) s1 | Undef => Undef end
                end
    end.
  Lemma count_small : forall n, (n < 1000)%nat -> to_signed E RSz (VS R32 (Z.of_nat n)) = Some (Z.of_nat n).
  Proof.
    intros n H. cbn [to_signed rank_eqb]. f_equal.
    assert (B : (2 ^ 31 <= 2 ^ Z.of_N (bits E RSz - 1))%Z /\ (2 ^ 31 <= 2 ^ Z.of_N (bits E RSz))%Z) by (cbn [bits]; destruct (plat64 E); split; vm_compute; discriminate).
    destruct B as (B1 & B2). revert B1 B2. generalize (2 ^ Z.of_N (bits E RSz - 1))%Z (2 ^ Z.of_N (bits E RSz))%Z. intros x y B1 B2.
    change (2 ^ 31)%Z with 2147483648%Z in *. rewrite Z.mod_small by lia. destruct (Z.ltb_spec (Z.of_nat n) x); lia.
  Qed.
  Lemma snprintf_count : forall v t c t1, snprintf v len t = Some (c, t1) -> c = Z.of_nat (List.length t).
  Proof.
    intros v t c t1 H. unfold snprintf in H. destruct (len =? 0); [congruence|].
    match type of H with (if ?x then _ else _) = _ => destruct x end; congruence.
  Qed.

  Lemma print_run : forall v fmt es vs a b fs ls f r d s (K : flow -> locals -> M T),
    view p s = Done v s ->
    (forall t, print_format E fmt None vs = Some t -> (List.length t < 1000)%nat) ->
    eval E P call (ECall "system_string_sprintf" (EVar "byte_size_string" :: EVar "byte_size_string_length" :: EText fmt :: es)) (kl a b 0 fs ls f r d) s =
      (x <- tool_call E lp sc "system_string_sprintf" (VChars p :: VU RSz len :: VText fmt :: vs) ;; ret (fst x, kl a b 0 fs ls f r d)) s ->
    dn (SAssign (EVar "print_count") (ECall "system_string_sprintf" (EVar "byte_size_string" :: EVar "byte_size_string_length" :: EText fmt :: es))) (kl a b 0 fs ls f r d) K s =
    printed v (print_format E fmt None vs) (fun c => kl a b c fs ls f r d) K s.
  Proof.
    intros v fmt es vs a b fs ls f r d s K Hv Hb He. rewrite den_assign, He.
    change (tool_call E lp sc "system_string_sprintf" (VChars p :: VU RSz len :: VText fmt :: vs))
      with (t <- lift (print_format E fmt None vs) ;; v <- view p ;; x <- lift (snprintf v len t) ;; write p (snd x) ;;;
            ret (VS R32 (fst x), map (fun _ => @None val) (VChars p :: VU RSz len :: VText fmt :: vs))).
    unfold printed. unfold bind at 1 2. destruct (print_format E fmt None vs) as [t|]; [|reflexivity].
    cbn [lift]. unfold ret at 1. unfold bind at 1. rewrite Hv. unfold bind at 1.
    destruct (snprintf v len t) as [[c t1]|] eqn:Q; [|reflexivity]. cbn [lift fst snd]. unfold ret at 1. unfold bind at 1. cbn [fst snd].
    destruct (write p t1 s) as [[] s1|]; [|reflexivity]. unfold ret. cbn [fst snd].
    rewrite (snprintf_count _ _ _ _ Q). cbn [assign]. change (lget (kl a b 0 fs ls f r d) "print_count") with (Some (VS RSz 0)).
    unfold bind. rewrite count_small by (apply Hb; reflexivity). reflexivity.
  Qed.

  Definition end_part : stmt :=
    SIf (ELogOr (EBin OLt (EVar "print_count") (EInt 0)) (EBin OGt (ECast false RSz (EVar "print_count")) (EVar "byte_size_string_length"))) (
      SExpr (ECall "libcerror_error_set" [(EVar "error"); (EName "LIBCERROR_ERROR_DOMAIN_RUNTIME"); (EName "LIBCERROR_RUNTIME_ERROR_SET_FAILED")]) ;-
      SReturn (EInt (-1))) SSkip ;-
    SReturn (EInt 1).
  Lemma end_run : forall n a b fs ls f r d s (K : flow -> locals -> M T) (R : Z -> M T), (n < 1000)%nat ->
    (forall c z s1, K (FReturn (VS R32 z)) (kl a b c fs ls f r d) s1 = R z s1) ->
    dn end_part (kl a b (Z.of_nat n) fs ls f r d) K s =
    (r <- (if (Z.of_nat n <? 0)%Z || (len <? Z.to_N (Z.of_nat n)) then fail e E_RUNTIME_SET_FAILED else ret 1%Z) ;; R r) s.
  Proof.
    intros n a b fs ls f r d s K R Hn HK. unfold end_part.
    assert (C : ev (ELogOr (EBin OLt (EVar "print_count") (EInt 0)) (EBin OGt (ECast false RSz (EVar "print_count")) (EVar "byte_size_string_length"))) (kl a b (Z.of_nat n) fs ls f r d) s =
                Done (truth ((Z.of_nat n <? 0)%Z || (len <? Z.to_N (Z.of_nat n))), kl a b (Z.of_nat n) fs ls f r d) s).
    { apply ev_or.
      - eapply ev_bin; [reflexivity|reflexivity|]. cbn [binary usual promote]. reflexivity.
      - intros _.
        assert (V : ev (ECast false RSz (EVar "print_count")) (kl a b (Z.of_nat n) fs ls f r d) s = Done (VU RSz (Z.to_N (Z.of_nat n)), kl a b (Z.of_nat n) fs ls f r d) s).
        { cbn [eval]. unfold bind, ret. change (lget (kl a b (Z.of_nat n) fs ls f r d) "print_count") with (Some (VS RSz (Z.of_nat n))). cbn [fst snd convert].
          rewrite tu_int by (reflexivity || lia). reflexivity. }
        eapply ev_bin; [exact V|reflexivity|]. apply bin_uu; [reflexivity|discriminate|discriminate|reflexivity]. }
    rewrite den_seq, (decided _ _ _ _ _ _ _ _ _ _ _ _ C).
    destruct ((Z.of_nat n <? 0)%Z || (len <? Z.to_N (Z.of_nat n))).
    - eapply failed; [reflexivity|reflexivity|intros; apply HK].
    - rewrite den_skip, den_return_int. apply HK.
  Qed.
End Create.

(* ------------------------------------------------------------- the function *)

Definition create_text : stmt :=
  SIf (EBin OEq (EVar "byte_size_string") ENull) (
    SExpr (ECall "libcerror_error_set" [(EVar "error"); (EName "LIBCERROR_ERROR_DOMAIN_ARGUMENTS"); (EName "LIBCERROR_ARGUMENT_ERROR_INVALID_VALUE")]) ;-
    SReturn (EInt (-1))) SSkip ;-
  SIf (EBin OLt (EVar "byte_size_string_length") (EInt 9)) (
    SExpr (ECall "libcerror_error_set" [(EVar "error"); (EName "LIBCERROR_ERROR_DOMAIN_ARGUMENTS"); (EName "LIBCERROR_ARGUMENT_ERROR_VALUE_TOO_SMALL")]) ;-
    SReturn (EInt (-1))) SSkip ;-
  units_part ;-
  SAssign FS (EVar "size") ;-
  factor_part ;-
  SIf (EBin OGt (EVar "factor") (EInt 8)) (
    SExpr (ECall "libcerror_error_set" [(EVar "error"); (EName "LIBCERROR_ERROR_DOMAIN_RUNTIME"); (EName "LIBCERROR_RUNTIME_ERROR_UNSUPPORTED_VALUE")]) ;-
    SReturn (EInt (-1))) SSkip ;-
  switch_part ;-
  cap_part ;-
  SIf (EBin OGe (EVar "remainder") (EInt 0)) (
    SIf (EBin ONe (ECall "libclocale_locale_get_decimal_point" [(ERef "decimal_point"); (EVar "error")]) (EInt 1)) (
      SExpr (ECall "libcerror_error_set" [(EVar "error"); (EName "LIBCERROR_ERROR_DOMAIN_RUNTIME"); (EName "LIBCERROR_RUNTIME_ERROR_GET_FAILED")]) ;-
      SReturn (EInt (-1))) SSkip ;-
    SAssign (EVar "print_count") (ECall "system_string_sprintf" [(EVar "byte_size_string"); (EVar "byte_size_string_length"); (EText format1); FS; (EChar (EVar "decimal_point")); (EVar "remainder"); (EVar "factor_string"); (EVar "units_string")]))
  (
    SAssign (EVar "print_count") (ECall "system_string_sprintf" [(EVar "byte_size_string"); (EVar "byte_size_string_length"); (EText format2); FS; (EVar "factor_string"); (EVar "units_string")])) ;-
  end_part.
Lemma create_eq : f_body text_byte_size_string_create = create_text.
Proof. reflexivity. Qed.

Lemma digits_short : forall f n, (List.length (decimal_digits f n) <= f)%nat.
Proof.
  induction f as [|f IH]; intros n; cbn [decimal_digits]; [cbn; lia|]. destruct (n <? 10); [cbn; lia|]. rewrite app_length. cbn [List.length]. specialize (IH (n / 10)). lia.
Qed.
Lemma factor_codes : forall k, k <= 8 -> codes (factor_text_of k) = factor_string k.
Proof. intros k H. apply upto8 in H. cbn [In] in H. repeat (destruct H as [<-|H]; [reflexivity|]). contradiction. Qed.

Lemma factor_short : forall k, k <= 8 -> (List.length (factor_string k) <= 1)%nat.
Proof. intros k H. apply upto8 in H. cbn [In] in H. repeat (destruct H as [<-|H]; [vm_compute; lia|]). contradiction. Qed.

Lemma unit_short : forall size z b, unit_text size z = Some b -> (List.length (codes b) <= 2)%nat.
Proof.
  intros size z b H. unfold unit_text in H. destruct ((size <? 1024) || (word64 z =? 1000)); [injection H as <-; vm_compute; lia|].
  destruct (word64 z =? 1024); [injection H as <-; vm_compute; lia|discriminate].
Qed.
Lemma sprintf_call : forall E lp sc p len fmt vs es l s, List.length es = List.length vs ->
  (x <- tool_call E lp sc "system_string_sprintf" (VChars p :: VU RSz len :: VText fmt :: vs) ;;
   l' <- lift (copy_out (EVar "byte_size_string" :: EVar "byte_size_string_length" :: EText fmt :: es) (snd x) l) ;; ret (fst x, l')) s =
  (x <- tool_call E lp sc "system_string_sprintf" (VChars p :: VU RSz len :: VText fmt :: vs) ;; ret (fst x, l)) s.
Proof.
  intros E lp sc p len fmt vs es l s Hn. apply bind_ext. intros x s1 H.
  assert (X : snd x = map (fun _ => None) (VChars p :: VU RSz len :: VText fmt :: vs)).
  { change (tool_call E lp sc "system_string_sprintf" (VChars p :: VU RSz len :: VText fmt :: vs))
      with (t <- lift (print_format E fmt None vs) ;; v <- view p ;; x <- lift (snprintf v len t) ;; write p (snd x) ;;;
            ret (VS R32 (fst x), map (fun _ => @None val) (VChars p :: VU RSz len :: VText fmt :: vs))) in H.
    unfold bind in H. destruct (lift (print_format E fmt None vs) s) as [t s2|]; [|discriminate]. destruct (view p s2) as [v s3|]; [|discriminate].
    destruct (lift (snprintf v len t) s3) as [y s4|]; [|discriminate]. destruct (write p (snd y) s4) as [[] s5|]; [|discriminate].
    unfold ret in H. injection H as <- _. reflexivity. }
  rewrite X. cbn [map copy_out].
  assert (Y : copy_out es (map (fun _ : val => None) vs) l = Some l).
  { clear -Hn. revert vs Hn. induction es as [|x es IH]; intros [|v vs] Hn; try discriminate; [reflexivity|]. cbn [map copy_out]. injection Hn as Hn. destruct x; apply IH, Hn. }
  rewrite Y. reflexivity.
Qed.

Lemma text_create : forall E sg vb lp sc fuel p target len size z e s,
  wf_state s -> match p, target with Some p, Some l => view p s = Done l s | None, None => True | _, _ => False end ->
  len < size_mod E -> size < 2 ^ 64 -> (- 2 ^ 31 <= z < 2 ^ 31)%Z -> (65 <= fuel)%nat ->
  run_tool E sg vb lp sc fuel "byte_size_string_create" [v_chars p; VU RSz len; VU R64 size; VS R32 z; v_error e] s =
  (r <- byte_size_string_create (option_map (fun z => Z.to_N (z mod 256)) lp) target len size (word64 z) e ;;
   store p (snd r) ;;;
   ret (VS R32 (fst r), [None; None; None; None; None])) s.
Proof.
  intros E sg vb lp sc fuel p target len size z e s W Hs Hlen Hsize Hz Hf.
  eapply enter_tool; [reflexivity|reflexivity| | |].
  { instantiate (1 := [("byte_size_string", v_chars p); ("byte_size_string_length", VU RSz len); ("size", VU R64 size); ("units", VS R32 z); ("error", v_error e)]).
    destruct p, e; reflexivity. }
  { instantiate (1 := s). instantiate (1 := [("byte_size_string", v_chars p); ("byte_size_string_length", VU RSz len); ("size", VU R64 size); ("units", VS R32 z); ("error", v_error e);
     ("factor_string", VNull); ("units_string", VNull); ("print_count", VS RSz 0); ("factored_size", VU R64 0); ("last_factored_size", VU R64 0);
     ("factor", VS R8 0); ("remainder", VS R8 (-1)); ("decimal_point", VS R32 0)]).
    cbn [enter_locals f_locals text_byte_size_string_create eval]. unfold bind, ret. cbn [fst snd].
    replace (convert E true RSz (VS R32 0)) with (Some (VS RSz 0)) by (unfold convert; rewrite ts_zero; reflexivity). reflexivity. }
  intros kl' ke Hkl Hke. rewrite create_eq.
  match goal with |- @den _ _ _ _ _ _ ?l _ _ = _ => set (L := l) end.
  set (R := fun r => ret (VS R32 r, [None; None; None; None; None]) : M (val * list (option val))).
  change (@den E (tools_text sg vb) (tool_call E lp sc) fuel (val * list (option val)) create_text L ke s =
    (r <- byte_size_string_create (option_map (fun z => Z.to_N (z mod 256)) lp) target len size (word64 z) e ;; store p (snd r) ;;; R (fst r)) s).
  assert (Hret : forall z s1, ke (FReturn (VS R32 z)) L s1 = R z s1).
  { intros. subst ke kl' L R. destruct p, e; reflexivity. }
  assert (Hr2 : forall p0 a b c fs ls f r d z0 s1, p = Some p0 ->
                ke (FReturn (VS R32 z0)) (kl p0 len size z e a b c fs ls f r d) s1 = R z0 s1).
  { intros. subst ke kl' L R p. destruct a, b, e; reflexivity. }
  clear Hke Hkl. unfold byte_size_string_create, create_text.
  rewrite den_seq, (missing _ _ _ _ _ "byte_size_string" (v_chars p)) with (b := match p with Some _ => false | None => true end) by (reflexivity || apply null_chars).
  destruct p as [p|], target as [v|]; try contradiction; cycle 1.
  { rewrite bind_assoc. eapply failed; [reflexivity|reflexivity|intros; rewrite Hret; reflexivity]. }
  rewrite den_skip, den_seq.
  assert (Back : forall k l (K : flow -> locals -> M _), lget l "error" = Some (v_error e) -> (forall s1, K (FReturn (VS R32 (-1))) l s1 = R (-1)%Z s1) -> forall d c, error_of d c = Some k ->
    @den E (tools_text sg vb) (tool_call E lp sc) fuel (val * list (option val)) (SExpr (ECall "libcerror_error_set" [(EVar "error"); (EName d); (EName c)]) ;- SReturn (EInt (-1))) l K s =
    (r <- (r <- fail e k ;; ret (r, Some v)) ;; store (Some p) (snd r) ;;; R (fst r)) s).
  { intros k l K H1 H2 d c H3. rewrite (failed E _ _ fuel _ d c k e l K s R H3 H1 H2). rewrite bind_assoc. unfold fail. rewrite !bind_assoc.
    apply bind_ext. intros [] s1 H4. unfold bind, ret. cbn [fst snd store]. rewrite (write_same p v s s1 Hs); [reflexivity|].
    unfold error_set in H4. injection H4 as <-. reflexivity. }
  set (us := unit_text size z).
  set (lift_us := (if (size <? 1024) || (word64 z =? 1000) then Some [66] else if word64 z =? 1024 then Some [105; 66] else None)).
  assert (Us : lift_us = option_map codes us).
  { subst lift_us us. unfold unit_text. destruct ((size <? 1024) || (word64 z =? 1000)); [reflexivity|]. destruct (word64 z =? 1024); reflexivity. }
  assert (C1 : eval E (tools_text sg vb) (tool_call E lp sc) (EBin OLt (EVar "byte_size_string_length") (EInt 9)) L s = Done (truth (len <? 9), L) s).
  { eapply ev_bin; [reflexivity|reflexivity|]. eapply bin_us; [reflexivity|reflexivity|discriminate|discriminate|tunum|reflexivity]. }
  rewrite (decided _ _ _ _ _ _ _ _ _ _ _ _ C1). clear C1.
  destruct (len <? 9); [apply Back; [reflexivity|intros; apply Hret|reflexivity]|]. rewrite den_skip.
  change L with (kl p len size z e VNull VNull 0 0 0 0 (-1) 0). clear Hret. clear L.
  rewrite den_seq, units_part_run by assumption. fold us.
  rewrite den_seq. change (@den ?A ?B ?C ?D ?F (SAssign FS (EVar "size")) ?l ?K ?y) with (K FNext (kl p len size z e VNull (v_text us) 0 size 0 0 (-1) 0) y). cbv beta iota.
  rewrite den_seq, factor_part_run by assumption. cbv zeta. fold lift_us.
  rewrite bind_assoc. unfold bind at 1. destruct (factor_loop 65 (word64 z) size 0 0) as [[[fs ls] k]|]; [|reflexivity]. cbn [lift]. unfold ret at 1. cbv beta iota zeta.
  fold (small_left size z fs).
  set (r0 := if small_left size z fs then to_int8 ((ls mod word64 z) / 100) else (-1)%Z).
  set (l0 := if small_left size z fs then ls mod word64 z else ls).
  rewrite den_seq.
  assert (C2 : eval E (tools_text sg vb) (tool_call E lp sc) (EBin OGt (EVar "factor") (EInt 8)) (kl p len size z e VNull (v_text us) 0 fs l0 (Z.of_N k) r0 0) s =
               Done (truth (8 <? Z.of_N k)%Z, kl p len size z e VNull (v_text us) 0 fs l0 (Z.of_N k) r0 0) s) by reflexivity.
  rewrite (decided _ _ _ _ _ _ _ _ _ _ _ _ C2). clear C2.
  replace (8 <? Z.of_N k)%Z with (8 <? k) by (destruct (N.ltb_spec 8 k), (Z.ltb_spec 8 (Z.of_N k)); lia).
  destruct (N.ltb_spec 8 k) as [_|Hk]; [apply Back; [reflexivity|intros; apply Hr2; reflexivity|reflexivity]|]. rewrite den_skip.
  rewrite den_seq, switch_run by assumption. rewrite den_seq, cap_run. set (r1 := if (9 <? r0)%Z then 9%Z else r0).
  assert (Tail : forall Y a b f r d, (List.length Y <= 100)%nat ->
    @printed p len (val * list (option val)) v (option_map (fun b => print_decimal fs ++ Y ++ [32] ++ codes (factor_text_of k) ++ codes b) us) (fun c => kl p len size z e a b c fs l0 f r d)
      (fun fl l' => match fl with FNext => @den E (tools_text sg vb) (tool_call E lp sc) fuel _ end_part l' ke | _ => ke fl l' end) s =
    (r <- (us <- lift lift_us ;; x <- lift (snprintf v len (print_decimal fs ++ Y ++ [32] ++ factor_string k ++ us)) ;;
           let '(print_count, target1) := x in
           if (print_count <? 0)%Z || (len <? Z.to_N print_count) then r <- fail e E_RUNTIME_SET_FAILED ;; ret (r, Some target1) else ret (1%Z, Some target1)) ;;
     store (Some p) (snd r) ;;; R (fst r)) s).
  { intros Y a b f r d HX. rewrite Us, bind_assoc. unfold printed. unfold bind at 1.
    destruct us as [b'|] eqn:Ub; cbn [option_map lift]; [|reflexivity]. unfold ret at 1. rewrite factor_codes by exact Hk.
    assert (Hb : (List.length (print_decimal fs ++ Y ++ [32%N] ++ factor_string k ++ codes b') < 1000)%nat).
    { rewrite !app_length. cbn [List.length].
      assert (List.length (factor_string k) <= 1)%nat by (apply factor_short; exact Hk).
      pose proof (unit_short size z b' Ub).
      pose proof (digits_short 20 fs) as D1. fold (print_decimal fs) in D1. lia. }
    rewrite bind_assoc. unfold bind at 1. destruct (snprintf v len (print_decimal fs ++ Y ++ [32] ++ factor_string k ++ codes b')) as [[c t1]|] eqn:Q; [|reflexivity].
    cbn [lift]. unfold ret at 1. cbv beta iota. rewrite (snprintf_count _ _ _ _ _ Q) in *.
    destruct (write p t1 s) as [[] s1|] eqn:Wr.
    2: { destruct ((Z.of_nat (List.length (print_decimal fs ++ Y ++ [32%N] ++ factor_string k ++ codes b')) <? 0)%Z || _).
         - pose proof (write_error_undef p t1 e E_RUNTIME_SET_FAILED s Wr) as We. unfold fail. rewrite !bind_assoc. unfold bind, ret in *. cbn [fst snd store].
           destruct (error_set e E_RUNTIME_SET_FAILED s) as [[] s3|]; [|reflexivity]. rewrite We. reflexivity.
         - unfold bind, ret. cbn [fst snd store]. rewrite Wr. reflexivity. }
    rewrite (end_run E sg vb lp sc fuel p len size z e) with (R := R) by first [assumption | intros; apply Hr2; reflexivity].
    destruct ((Z.of_nat (List.length (print_decimal fs ++ Y ++ [32%N] ++ factor_string k ++ codes b')) <? 0)%Z || _).
    - pose proof (write_error p t1 e E_RUNTIME_SET_FAILED s s1 Wr) as We. unfold fail. rewrite !bind_assoc. unfold bind, ret in *. cbn [fst snd store].
      destruct (error_set e E_RUNTIME_SET_FAILED s) as [[] s3|] eqn:Q1; [|discriminate].
      destruct (error_set e E_RUNTIME_SET_FAILED s1) as [[] s4|] eqn:Q2; [|discriminate]. rewrite We. reflexivity.
    - unfold bind, ret. cbn [fst snd store]. rewrite Wr. reflexivity. }
  rewrite den_seq.
  assert (C3 : eval E (tools_text sg vb) (tool_call E lp sc) (EBin OGe (EVar "remainder") (EInt 0)) (kl p len size z e (VText (factor_text_of k)) (v_text us) 0 fs l0 (Z.of_N k) r1 0) s =
               Done (truth (0 <=? r1)%Z, kl p len size z e (VText (factor_text_of k)) (v_text us) 0 fs l0 (Z.of_N k) r1 0) s) by reflexivity.
  rewrite (decided _ _ _ _ _ _ _ _ _ _ _ _ C3). clear C3.
  pose proof (digits_short 20 fs) as D1. pose proof (digits_short 20 (Z.to_N r1)) as D2. fold (print_decimal fs) in D1. fold (print_decimal (Z.to_N r1)) in D2.
  destruct (Z.leb_spec 0 r1) as [Hr|Hr].
  - rewrite den_seq, den_if.
    assert (C : eval E (tools_text sg vb) (tool_call E lp sc) (EBin ONe (ECall "libclocale_locale_get_decimal_point" [(ERef "decimal_point"); (EVar "error")]) (EInt 1))
                  (kl p len size z e (VText (factor_text_of k)) (v_text us) 0 fs l0 (Z.of_N k) r1 0) s =
                Done (truth (negb (is_some lp)), kl p len size z e (VText (factor_text_of k)) (v_text us) 0 fs l0 (Z.of_N k) r1 (match lp with Some d => d | None => 0%Z end)) s).
    { destruct lp, e, us; reflexivity. }
    rewrite C. clear C. cbn [fst snd]. rewrite test_truth.
    destruct lp as [d|]; cbn [is_some negb option_map]; [|apply Back; [reflexivity|intros; apply Hr2; reflexivity|reflexivity]].
    rewrite den_skip.
    rewrite (print_run E sg vb (Some d) sc fuel p len size z e) with (v := v) (vs := [VU R64 fs; dchar E sg d; VS R8 r1; VText (factor_text_of k); v_text us]); try assumption.
    + rewrite print1 with (len := len) (size := size) by assumption. etransitivity; [apply (Tail ([Z.to_N (d mod 256)] ++ print_decimal (Z.to_N r1)))|reflexivity].
      rewrite app_length. cbn [List.length]. lia.
    + intros t Ht. rewrite print1 with (len := len) (size := size) in Ht by assumption. destruct us as [b'|] eqn:Ub; [|discriminate]. injection Ht as <-.
      pose proof (unit_short size z b' Ub). rewrite factor_codes by exact Hk. pose proof (factor_short k Hk). repeat (rewrite ?app_length; cbn [List.length app]). lia.
    + etransitivity; [|apply sprintf_call with (es := [FS; EChar (EVar "decimal_point"); EVar "remainder"; EVar "factor_string"; EVar "units_string"])].
      * destruct sg, us; reflexivity.
      * reflexivity.
  - rewrite (print_run E sg vb lp sc fuel p len size z e) with (v := v) (vs := [VU R64 fs; VText (factor_text_of k); v_text us]); try assumption.
    + rewrite print2. etransitivity; [apply (Tail [])|reflexivity]. cbn [List.length]. lia.
    + intros t Ht. rewrite print2 in Ht. destruct us as [b'|] eqn:Ub; [|discriminate]. injection Ht as <-.
      pose proof (unit_short size z b' Ub). rewrite factor_codes by exact Hk. pose proof (factor_short k Hk). repeat (rewrite ?app_length; cbn [List.length app]). lia.
    + etransitivity; [|apply sprintf_call with (es := [FS; EVar "factor_string"; EVar "units_string"])].
      * destruct us; reflexivity.
      * reflexivity.
Qed.
