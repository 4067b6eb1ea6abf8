(* The functions of TextTools.v as run_tool runs them: with the hypotheses of Vocab.v, and what they compute. *)
From Coq Require Import Arith NArith ZArith List Lia Bool String.
From Verif Require Import Words Spec Machine Context Hash ToolStrings Getopt CText TextAll TextTools ToolCalls.
From Verif Require Import Vocab ToolVocab MachineFacts LibProofs ToolProofs GetoptVocab GetoptFacts TextFacts TextHmac TextDigest TextSizes TextCreate TextGetopt.
From Verif Require Import Demo Vocab ToolVocab GetoptVocab.
Import ListNotations.
Open Scope string_scope.
Open Scope list_scope.
Open Scope N_scope.

Lemma run_copy_to_string : forall E sg vb lp sc fuel d n t m e s,
  good_state s -> n < size_mod E -> m < size_mod E -> (N.to_nat n <= fuel)%nat ->
  run_tool E sg vb lp sc fuel "digest_hash_copy_to_string" [v_bytes d; VU RSz n; v_chars t; VU RSz m; v_error e] s =
  (r <- digest_hash_copy_to_string E d n t m e ;; ret (VS R32 r, [None; None; None; None; None])) s.
Proof. intros. apply text_copy_to_string; try assumption. now apply good_wf. Qed.

Lemma run_text_to_size : forall E sg vb lp sc fuel p str len q e s, good_state s ->
  match p, str with
  | Some p, Some l => view p s = Done l s /\ N.of_nat (List.length l) < size_mod E /\ (S (List.length l) <= fuel)%nat
  | None, None => True
  | _, _ => False
  end -> len < size_mod E -> (8 <= fuel)%nat ->
  run_tool E sg vb lp sc fuel "byte_size_string_convert" [v_chars p; VU RSz len; v_number q; v_error e] s =
  (r <- byte_size_string_convert vb (option_map (fun z => Z.to_N (z mod 256)) lp) str len (is_some q) e ;;
   ret (VS R32 (fst r), [None; None; option_map (fun old => VU R64 (match snd r with Some n => n | None => old end)) q; None])) s.
Proof. intros. apply text_convert; try assumption. now apply good_wf. Qed.

Lemma run_size_to_text : forall E sg vb lp sc fuel p target len size units e s, good_state s ->
  match p, target with Some p, Some l => view p s = Done l s | None, None => True | _, _ => False end ->
  len < size_mod E -> size < 2 ^ 64 -> (- 2 ^ 31 <= units < 2 ^ 31)%Z -> (65 <= fuel)%nat ->
  run_tool E sg vb lp sc fuel "byte_size_string_create" [v_chars p; VU RSz len; VU R64 size; VS R32 units; v_error e] s =
  (r <- byte_size_string_create (option_map (fun z => Z.to_N (z mod 256)) lp) target len size (word64 units) e ;;
   store p (snd r) ;;;
   ret (VS R32 (fst r), [None; None; None; None; None])) s.
Proof. intros. apply text_create; try assumption. now apply good_wf. Qed.

Lemma run_getopt : forall E sg vb lp sc fuel ps argv q options g s,
  good_state s -> strings_at s ps argv -> view q s = Done (options ++ [0]) s -> Forall (fun c => 0 < c < 128) options ->
  N.of_nat (List.length options) < size_mod E -> (Z.of_nat (List.length argv) < 2 ^ 31 - 2)%Z -> (Z.of_nat (optind g) < 2 ^ 31 - 2)%Z ->
  (forall i j, next_option g = Some (i, j) -> (i < List.length argv)%nat) ->
  run_tool E sg vb lp sc fuel "hmactools_getopt"
    (VS R32 (Z.of_nat (List.length argv)) :: VPtrs (map VChars ps) :: VChars q :: map VRef (v_globals sg ps g)) s =
  match hmactools_getopt sc argv options g with
  | Some (r, g') => Done (VS R32 r, None :: None :: None :: map Some (v_globals sg ps g')) s
  | None => Undef
  end.
Proof.
  intros E sg vb lp sc fuel ps argv q options g s G H1 H2 H3 H4 H5 H6 H7. apply text_getopt; try assumption; [now apply good_wf|].
  destruct (next_option g) as [[i j]|]; [exact (H7 i j eq_refl)|exact I].
Qed.

(* ---- what the text computes ---- *)

Lemma size_max : forall E n, n <= ssize_max E -> n < size_mod E.
Proof. intros E n. unfold ssize_max, size_mod. destruct (plat64 E); lia. Qed.

Lemma text_hexadecimal : forall E sg vb lp sc fuel dp n sp size e s, n <= ssize_max E -> 2 * n + 1 <= size <= ssize_max E ->
  good_state s -> accessible s dp n -> accessible s sp size -> fst dp <> fst sp -> (N.to_nat n <= fuel)%nat ->
  exists s', run_tool E sg vb lp sc fuel "digest_hash_copy_to_string" [VBytes dp; VU RSz n; VChars sp; VU RSz size; v_error e] s =
             Done (VS R32 1%Z, [None; None; None; None; None]) s' /\
  bytes_at s' sp (2 * n + 1) = hex (bytes_at s dp n) ++ [0] /\
  unchanged_but s s' sp (2 * n + 1) /\ errs s' = errs s /\ tries s' = tries s /\ List.length (mem s') = List.length (mem s).
Proof.
  intros E sg vb lp sc fuel dp n sp size e s H1 H2 G A B D F. destruct (hex_of_digest E dp n sp size e s H1 H2 G A B D) as (s' & R & Z).
  exists s'. split; [|exact Z].
  pose proof (run_copy_to_string E sg vb lp sc fuel (Some dp) n (Some sp) size e s G (size_max _ _ H1) (size_max _ _ (proj2 H2)) F) as Q.
  cbn [v_bytes v_chars] in Q. rewrite Q. unfold bind. rewrite R. reflexivity.
Qed.

Lemma view_after : forall p l s t, view p s = Done l s -> List.length t = List.length l ->
  exists s', write p t s = Done tt s' /\ view p s' = Done t s' /\ errs s' = errs s /\ tries s' = tries s.
Proof.
  intros p l s t H HL. unfold view in H. destruct (get_obj s (fst p)) as [[b| |]|] eqn:O; try discriminate.
  destruct (snd p <=? N.of_nat (List.length b)) eqn:L; [|discriminate]. injection H as Hs. apply N.leb_le in L.
  assert (HB : snd p + N.of_nat (List.length t) <= N.of_nat (List.length b)).
  { rewrite HL, <- Hs, skipn_length. lia. }
  eexists. split; [exact (write_ok s p b t O HB)|]. split; [|split; [apply set_obj_errs|apply set_obj_tries]].
  assert (O2 : get_obj (set_obj (fst p) (OBytes (put b (snd p) t)) s) (fst p) = Some (OBytes (put b (snd p) t))) by (eapply get_set_same; exact O).
  rewrite (view_ok _ _ _ O2) by (rewrite put_length by exact HB; exact L). f_equal.
  assert (Hl : List.length l = (List.length b - N.to_nat (snd p))%nat) by (rewrite <- Hs; apply skipn_length).
  unfold put. rewrite skipn_app, firstn_length, Nat.min_l, Nat.sub_diag by lia. cbn [skipn]. rewrite skipn_all2 by (rewrite firstn_length; lia). cbn [app].
  rewrite skipn_all2 by lia. apply app_nil_r.
Qed.

Lemma text_prints_size : forall E sg vb lp sc fuel p target len size e s, good_state s -> view p s = Done target s ->
  size < 2 ^ 64 -> 9 <= len <= N.of_nat (List.length target) -> len < size_mod E -> (65 <= fuel)%nat ->
  exists f q t number s', scaled 1000 size f q /\ numeral q number /\ t < 10 /\ 10 * size / 1000 ^ f = 10 * q + (if f =? 0 then 0 else t) /\
  let text := size_text (Z.to_N (lp mod 256)) 1000 f q t number in
  run_tool E sg vb (Some lp) sc fuel "byte_size_string_create" [VChars p; VU RSz len; VU R64 size; VS R32 1000; v_error e] s =
  Done (VS R32 1%Z, [None; None; None; None; None]) s' /\
  view p s' = Done (text ++ [0] ++ skipn (S (List.length text)) target) s' /\ errs s' = errs s.
Proof.
  intros E sg vb lp sc fuel p target len size e s G V Hs HL Hlen F.
  destruct (create_1000 (Z.to_N (lp mod 256)) target len size e s Hs HL) as (f & q & t & number & H1 & H2 & H3 & H4 & H5 & H6).
  set (text := size_text (Z.to_N (lp mod 256)) 1000 f q t number) in *.
  destruct (view_after p target s (text ++ [0] ++ skipn (S (List.length text)) target) V) as (s' & W1 & W2 & W3 & W4).
  { rewrite !app_length, skipn_length. cbn [List.length]. lia. }
  exists f, q, t, number, s'. split; [exact H1|]. split; [exact H2|]. split; [exact H3|]. split; [exact H4|]. split; [|split; [exact W2|exact W3]].
  pose proof (run_size_to_text E sg vb (Some lp) sc fuel (Some p) (Some target) len size 1000 e s G V Hlen Hs ltac:(lia) F) as Q.
  cbn [v_chars option_map] in Q. change (word64 1000) with 1000 in Q. rewrite Q. unfold bind. rewrite H6. cbn [fst snd store]. rewrite W1. reflexivity.
Qed.

Lemma text_reads_size : forall E sg vb lp sc fuel p ds sp l f ut u tail rest old e s,
  let t := ds ++ sp ++ chars l ++ chars ut ++ tail in
  good_state s -> view p s = Done (t ++ 0 :: rest) s -> N.of_nat (List.length (t ++ 0 :: rest)) < size_mod E -> (List.length (t ++ 0%N :: rest) + 8 <= fuel)%nat ->
  point (Z.to_N (lp mod 256)) -> Forall numeric ds -> sp = [] \/ sp = [32] ->
  In (l, f) letters -> In (ut, u) units_texts \/ (ut = EmptyString /\ tail = [] /\ u = 1024) -> Forall (fun c => c <> 0) tail ->
  value_of ds * u ^ f < 2 ^ 64 ->
  run_tool E sg vb (Some lp) sc fuel "byte_size_string_convert" [VChars p; VU RSz (N.of_nat (List.length t)); VRef (VU R64 old); v_error e] s =
  Done (VS R32 1%Z, [None; None; Some (VU R64 (value_of ds * u ^ f)); None]) s.
Proof.
  intros E sg vb lp sc fuel p ds sp l f ut u tail rest old e s t G V HL F P D S1 L U T B.
  assert (F1 : (S (List.length (t ++ 0%N :: rest)) <= fuel)%nat) by lia. assert (F2 : (8 <= fuel)%nat) by lia.
  assert (Hl : N.of_nat (List.length t) < size_mod E) by (rewrite app_length in HL; cbn [List.length] in HL; lia).
  pose proof (run_text_to_size E sg vb (Some lp) sc fuel (Some p) (Some (t ++ 0 :: rest)) (N.of_nat (List.length t)) (Some old) e s G
               (conj V (conj HL F1)) Hl F2) as Q.
  cbn [v_chars v_number option_map is_some] in Q. rewrite Q. unfold bind.
  pose proof (convert_exact vb _ ds sp l f ut u tail rest e s P D S1 L U T B) as X. cbv zeta in X. fold t in X. rewrite X. reflexivity.
Qed.

Lemma text_refuses_kilo : forall E sg vb lp sc fuel p ds fr r sp k tail rest old e s,
  let t := ds ++ fr ++ sp ++ k :: tail in
  good_state s -> view p s = Done (t ++ 0 :: rest) s -> N.of_nat (List.length (t ++ 0 :: rest)) < size_mod E -> (List.length (t ++ 0%N :: rest) + 8 <= fuel)%nat ->
  point (Z.to_N (lp mod 256)) -> text_ok (Z.to_N (lp mod 256)) ds fr r sp -> k = 75 \/ k = 107 -> Forall (fun c => c <> 0) tail ->
  exists s', run_tool E sg vb (Some lp) sc fuel "byte_size_string_convert" [VChars p; VU RSz (N.of_nat (List.length t)); VRef (VU R64 old); v_error e] s =
  Done (VS R32 (-1)%Z, [None; None; Some (VU R64 old); None]) s' /\ only_error e s s'.
Proof.
  intros E sg vb lp sc fuel p ds fr r sp k tail rest old e s t G V HL F P D K T.
  assert (F1 : (S (List.length (t ++ 0%N :: rest)) <= fuel)%nat) by lia. assert (F2 : (8 <= fuel)%nat) by lia.
  assert (Hl : N.of_nat (List.length t) < size_mod E) by (rewrite app_length in HL; cbn [List.length] in HL; lia).
  pose proof (run_text_to_size E sg vb (Some lp) sc fuel (Some p) (Some (t ++ 0 :: rest)) (N.of_nat (List.length t)) (Some old) e s G
               (conj V (conj HL F1)) Hl F2) as Q.
  destruct (convert_kilo vb _ ds fr r sp k tail rest e s P D K T) as (s' & X & O). exists s'. split; [|exact O].
  cbn [v_chars v_number option_map is_some] in Q. rewrite Q. unfold bind. fold t in X. rewrite X. reflexivity.
Qed.

Lemma text_dash : forall E sg vb lp sc fuel ps argv q options g s,
  good_state s -> strings_at s ps argv -> view q s = Done (options ++ [0]) s -> options_ok options ->
  N.of_nat (List.length options) < size_mod E -> (Z.of_nat (List.length argv) < 2 ^ 31 - 2)%Z ->
  next_option g = None -> nth_error argv (optind g) = Some [45] ->
  run_tool E sg vb lp sc fuel "hmactools_getopt"
    (VS R32 (Z.of_nat (List.length argv)) :: VPtrs (map VChars ps) :: VChars q :: map VRef (v_globals sg ps g)) s = Undef.
Proof.
  intros E sg vb lp sc fuel ps argv q options g s G A Q O L1 L2 N0 D.
  assert (B : (optind g < List.length argv)%nat) by (apply nth_error_Some; congruence).
  rewrite (run_getopt E sg vb lp sc fuel ps argv q options g s G A Q); try assumption; try lia.
  - rewrite (dash_undefined sc options argv g O N0 D). reflexivity.
  - unfold options_ok in O. revert O. apply Forall_impl. tauto.
  - intros i j H. congruence.
Qed.

(* the case of PropToolText.v *)
Lemma tool_case : let s := mk_state (map (fun l => mk_cell true Heap (OBytes l))
  [[0; 0x9a; 0xff]; repeat 255 9; chars "1.5GB" ++ [0]; chars "d:v" ++ [0];
   chars "t" ++ [0]; chars "-vdx" ++ [0]; chars "-d" ++ [0]; chars "y" ++ [0]; chars "-" ++ [0]]) 0 [] [] in
  good_state s /\ strings_at s [(4%nat, 0); (5%nat, 0); (6%nat, 0); (7%nat, 0); (8%nat, 0)] [chars "t"; chars "-vdx"; chars "-d"; chars "y"; chars "-"] /\
  view (3%nat, 0) s = Done (chars "d:v" ++ [0]) s /\ Forall (fun c => 0 < c < 128) (chars "d:v").
Proof.
  intros s. split; [|split; [|split]].
  - apply bytes_good. reflexivity.
  - repeat constructor.
  - reflexivity.
  - cbn. repeat constructor.
Qed.
