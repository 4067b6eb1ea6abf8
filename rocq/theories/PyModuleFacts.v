(* Lemmas about the module pyhmac *)
From Coq Require Import Arith NArith ZArith List Bool Lia String Permutation.
From Verif Require Import Words Spec Machine Vocab Context Hash Py ToolVocab PyVocab PyTheorems PyModule PyModuleVocab.
Import ListNotations.
Open Scope N_scope.

(* ------------------------------------------------------- names *)

Lemma same_name_refl : forall n, same_name n n = true.
Proof. intros n. unfold same_name. now destruct (list_eq_dec N.eq_dec n n). Qed.
Lemma same_name_eq : forall m n, same_name m n = true <-> m = n.
Proof. intros m n. unfold same_name. destruct (list_eq_dec N.eq_dec m n); split; congruence. Qed.

Lemma find_name_in {A} : forall n (x : A) l, NoDup (map fst l) -> In (n, x) l -> find_name n l = Some x.
Proof.
  intros n x l D I. induction l as [|[m y] l IH]; [destruct I|]. cbn [map fst find_name] in *. inversion D as [|? ? D1 D2]; subst.
  destruct I as [I|I].
  - injection I as -> ->. now rewrite same_name_refl.
  - destruct (same_name n m) eqn:E; [|now apply IH].
    apply same_name_eq in E. subst m. exfalso. apply D1. now apply (in_map fst) in I.
Qed.
Lemma find_name_some {A} : forall n (x : A) l, find_name n l = Some x -> In (n, x) l.
Proof.
  intros n x l. induction l as [|[m y] l IH]; [discriminate|]. cbn [find_name].
  destruct (same_name n m) eqn:E; intros H.
  - injection H as ->. apply same_name_eq in E. subst. now left.
  - right. now apply IH.
Qed.

(* ------------------------------------------------------- arguments *)

Lemma map_fst_combine {A B} : forall (l : list A) (m : list B), List.length m = List.length l -> map fst (combine l m) = l.
Proof.
  induction l as [|a l IH]; intros [|b m] H; try discriminate; [reflexivity|]. cbn in *. f_equal. apply IH. lia.
Qed.

Lemma by_name_combine : forall names values keywords, List.length values = List.length names -> NoDup (map fst keywords) ->
  (forall n x, In (n, x) (combine names values) -> In (n, x) keywords) -> by_name names keywords = Some values.
Proof.
  induction names as [|n names IH]; intros [|v values] kw L D H; try discriminate; [reflexivity|].
  cbn [by_name combine] in *. rewrite (find_name_in n v); [|exact D|apply H; now left]. cbn [obind].
  rewrite (IH values kw); [reflexivity|cbn in L; lia|exact D|]. intros m x I. apply H. now right.
Qed.

Lemma parse_passed : forall names values arguments keywords, NoDup names -> passed names values arguments keywords ->
  parse_arguments names arguments keywords = Some values.
Proof.
  intros names values arguments kw D (k & -> & P & L). unfold parse_arguments.
  assert (LS : List.length (skipn k values) = List.length (skipn k names)) by (rewrite !skipn_length; lia).
  assert (SK : skipn (List.length (firstn k values)) names = skipn k names).
  { rewrite firstn_length. destruct (Nat.le_gt_cases k (List.length values)) as [Q|Q].
    - now rewrite Nat.min_l.
    - rewrite Nat.min_r by lia. rewrite !skipn_all2; [reflexivity|lia|lia]. }
  destruct (Nat.ltb_spec (List.length names) (List.length (firstn k values))) as [Q|_]; [rewrite firstn_length in Q; lia|].
  rewrite SK.
  assert (DS : NoDup (skipn k names)).
  { rewrite <- (firstn_skipn k names) in D. clear -D. induction (firstn k names) as [|x l IH]; [exact D|]. apply IH. now inversion D. }
  rewrite (by_name_combine (skipn k names) (skipn k values) kw LS).
  - assert (F : forallb (fun k0 => existsb (same_name (fst k0)) (skipn k names)) kw = true).
    { apply forallb_forall. intros [m x] I. apply existsb_exists. exists m. split; [|apply same_name_refl].
      apply (Permutation_in _ P) in I. now apply in_combine_l in I. }
    rewrite F. cbn [obind]. now rewrite firstn_skipn.
  - apply (Permutation_NoDup (l := map fst (combine (skipn k names) (skipn k values)))).
    + apply Permutation_map. now apply Permutation_sym.
    + now rewrite map_fst_combine.
  - intros n x I. now apply (Permutation_in _ (Permutation_sym P)).
Qed.

Lemma by_name_some : forall names keywords l, by_name names keywords = Some l ->
  List.length l = List.length names /\ forall n x, In (n, x) (combine names l) -> In (n, x) keywords.
Proof.
  induction names as [|n names IH]; intros kw l H; cbn [by_name] in H.
  - injection H as <-. split; [reflexivity|intros n x []].
  - destruct (find_name n kw) as [v|] eqn:F; [|discriminate]. cbn [obind] in H.
    destruct (by_name names kw) as [m|] eqn:B; [|discriminate]. cbn [obind] in H. injection H as <-.
    destruct (IH kw m B) as [L I]. split; [cbn; now rewrite L|].
    intros n' x [J|J]; [injection J as <- <-; now apply find_name_some|now apply I].
Qed.

Lemma NoDup_skipn {A} : forall k (l : list A), NoDup l -> NoDup (skipn k l).
Proof.
  intros k l D. rewrite <- (firstn_skipn k l) in D. revert D. generalize (skipn k l). intros r.
  induction (firstn k l) as [|x m IH]; intros D; [exact D|]. apply IH. now inversion D.
Qed.
Lemma NoDup_fst {A B} : forall l : list (A * B), NoDup (map fst l) -> NoDup l.
Proof. intros l. apply NoDup_map_inv. Qed.

Lemma parse_only_passed : forall names values arguments keywords, NoDup names -> NoDup (map fst keywords) ->
  parse_arguments names arguments keywords = Some values -> passed names values arguments keywords.
Proof.
  intros names values arguments kw D DK H. unfold parse_arguments in H.
  destruct (Nat.ltb_spec (List.length names) (List.length arguments)) as [|LA]; [discriminate|].
  destruct (forallb _ kw) eqn:F; [|discriminate].
  destruct (by_name (skipn (List.length arguments) names) kw) as [l|] eqn:B; [|discriminate]. cbn [obind] in H. injection H as <-.
  destruct (by_name_some _ _ _ B) as [L I]. exists (List.length arguments).
  rewrite firstn_app, firstn_all, Nat.sub_diag, firstn_O, app_nil_r.
  rewrite skipn_app, skipn_all, Nat.sub_diag. cbn [skipn app]. split; [reflexivity|]. split.
  - apply NoDup_Permutation.
    + now apply NoDup_fst.
    + apply NoDup_fst. rewrite map_fst_combine by exact L. now apply NoDup_skipn.
    + intros [n x]. split; [|apply I]. intros J.
      rewrite forallb_forall in F. specialize (F _ J). apply existsb_exists in F. destruct F as (m & M1 & M2).
      apply same_name_eq in M2. cbn in M2. subst m.
      assert (Q : exists y, In (n, y) (combine (skipn (List.length arguments) names) l)).
      { rewrite <- (map_fst_combine _ l L) in M1. apply in_map_iff in M1. destruct M1 as ([m y] & E & M1). cbn in E. subst m. now exists y. }
      destruct Q as (y & Q). pose proof (find_name_in n y kw DK (I _ _ Q)) as E1. pose proof (find_name_in n x kw DK J) as E2.
      rewrite E1 in E2. injection E2 as ->. exact Q.
  - rewrite app_length, L, skipn_length. lia.
Qed.

(* ------------------------------------------------------- the tables *)

Lemma names_found : forall n, (exists f, find_method n module_methods = Some f) <-> is_function n.
Proof.
  intros n. split.
  - intros (f & H). apply find_name_some in H. cbn [map module_methods fst snd In] in H. unfold is_function.
    repeat (destruct H as [H|H]; [injection H as <- <-; first
      [ left; reflexivity
      | right; exists MD5; (left; reflexivity) || (right; reflexivity)
      | right; exists SHA1; (left; reflexivity) || (right; reflexivity)
      | right; exists SHA224; (left; reflexivity) || (right; reflexivity)
      | right; exists SHA256; (left; reflexivity) || (right; reflexivity)
      | right; exists SHA512; (left; reflexivity) || (right; reflexivity) ]|]).
    destruct H.
  - intros [->|(a & [-> | ->])]; [|destruct a..]; eexists; reflexivity.
Qed.

Lemma calculate_entry : forall a, find_method (alg_name a ++ chars "_calculate") module_methods = Some (F_calculate a, 3).
Proof. intros []; reflexivity. Qed.
Lemma hmac_entry : forall a, find_method (alg_name a ++ chars "_calculate_hmac") module_methods = Some (F_calculate_hmac a, 3).
Proof. intros []; reflexivity. Qed.

Lemma calculate_by_name : forall E version a arguments keywords,
  module_call E version (alg_name a ++ chars "_calculate") arguments keywords =
  Some (pbind (py_calculate E a (match parse_arguments [chars "data"] arguments keywords with Some [x] => Some x | _ => None end))
              (fun r => pret (VRes r))).
Proof. intros. unfold module_call. rewrite calculate_entry. reflexivity. Qed.
Lemma hmac_by_name : forall E version a arguments keywords,
  module_call E version (alg_name a ++ chars "_calculate_hmac") arguments keywords =
  Some (pbind (py_calculate_hmac E a (match parse_arguments [chars "key"; chars "data"] arguments keywords with
                                      | Some [x; y] => Some (x, y) | _ => None end))
              (fun r => pret (VRes r))).
Proof. intros. unfold module_call. rewrite hmac_entry. reflexivity. Qed.

Lemma nodup1 : NoDup [chars "data"].
Proof. repeat constructor. intros []. Qed.
Lemma nodup2 : NoDup [chars "key"; chars "data"].
Proof. repeat constructor; [intros [H|[]]; discriminate|intros []]. Qed.

(* ------------------------------------------------------- theorems *)

Lemma call_calculate : forall E version a arguments keywords p n S, good_state (lib S) -> errs (lib S) = [] ->
  passed [chars "data"] [ABytes p n] arguments keywords -> accessible (lib S) p n -> n <= ssize_max E -> in_domain a (bytes_at (lib S) p n) ->
  exists m r S', module_call E version (alg_name a ++ chars "_calculate") arguments keywords = Some m /\ m S = PDone (VRes r) S' /\
  ((exists q, r = RBytes q /\ exn S' = None /\ get_obj (lib S') q = Some (OBytes (spec_hash a (bytes_at (lib S) p n)))) \/
   (r = RNull /\ exn S' = Some X_IOError /\ some_alloc_failed E (lib S) (lib S'))).
Proof.
  intros E version a args kw p n S G Er P A Hn D. rewrite calculate_by_name, (parse_passed _ _ _ _ nodup1 P).
  destruct (python_calculate E a p n S G Er A Hn D) as (r & S' & R & _ & _ & H).
  eexists _, r, S'. split; [reflexivity|]. unfold pbind, pret. rewrite R. split; [reflexivity|].
  destruct H as [(q & H1 & H2 & H3 & _)|(H1 & H2 & _ & H3)]; [left; now exists q|now right].
Qed.

Lemma call_hmac : forall E version a arguments keywords kp kn p n S, good_state (lib S) -> errs (lib S) = [] ->
  passed [chars "key"; chars "data"] [ABytes kp kn; ABytes p n] arguments keywords ->
  accessible (lib S) kp kn -> kn <= ssize_max E -> accessible (lib S) p n -> n <= ssize_max E ->
  (a = SHA512 -> kn < 2 ^ 61 /\ 128 + n < 2 ^ 61) ->
  exists m r S', module_call E version (alg_name a ++ chars "_calculate_hmac") arguments keywords = Some m /\ m S = PDone (VRes r) S' /\
  ((exists q, r = RBytes q /\ exn S' = None /\
      get_obj (lib S') q = Some (OBytes (spec_hmac a (bytes_at (lib S) kp kn) (bytes_at (lib S) p n)))) \/
   (r = RNull /\ exn S' = Some X_IOError /\ some_alloc_failed E (lib S) (lib S'))).
Proof.
  intros E version a args kw kp kn p n S G Er P Ak Hk A Hn D. rewrite hmac_by_name, (parse_passed _ _ _ _ nodup2 P).
  destruct (python_hmac E a kp kn p n S G Er Ak Hk A Hn D) as (r & S' & R & _ & _ & H).
  eexists _, r, S'. split; [reflexivity|]. unfold pbind, pret. rewrite R. split; [reflexivity|].
  destruct H as [(q & H1 & H2 & H3 & _)|(H1 & H2 & _ & H3)]; [left; now exists q|now right].
Qed.

Lemma call_refused : forall E version a arguments keywords S, NoDup (map fst keywords) ->
  ((forall x, ~ passed [chars "data"] [x] arguments keywords) ->
   exists m, module_call E version (alg_name a ++ chars "_calculate") arguments keywords = Some m /\
   m S = PDone (VRes RNull) (mk_py (lib S) (none_refs S) (Some X_TypeError))) /\
  ((forall k x, ~ passed [chars "key"; chars "data"] [k; x] arguments keywords) ->
   exists m, module_call E version (alg_name a ++ chars "_calculate_hmac") arguments keywords = Some m /\
   m S = PDone (VRes RNull) (mk_py (lib S) (none_refs S) (Some X_TypeError))).
Proof.
  intros E version a args kw S D. split; intros H.
  - rewrite calculate_by_name. eexists. split; [reflexivity|].
    destruct (parse_arguments _ args kw) as [[|x [|y l]]|] eqn:P; try reflexivity.
    exfalso. apply (H x). exact (parse_only_passed _ _ _ _ nodup1 D P).
  - rewrite hmac_by_name. eexists. split; [reflexivity|].
    destruct (parse_arguments _ args kw) as [[|x [|y [|z l]]]|] eqn:P; try reflexivity.
    exfalso. apply (H x y). exact (parse_only_passed _ _ _ _ nodup2 D P).
Qed.

Lemma call_exists : forall E version name arguments keywords,
  (exists m, module_call E version name arguments keywords = Some m) <-> is_function name.
Proof.
  intros. rewrite <- names_found. unfold module_call. destruct (find_method name module_methods) as [f|]; cbn [obind]; split; intros (x & H).
  - now eexists.
  - now eexists.
  - discriminate.
  - discriminate.
Qed.

Lemma call_version : forall E version arguments keywords S,
  exists m, module_call E version (chars "get_version") arguments keywords = Some m /\
  (arguments = [] /\ keywords = [] /\ m S = PDone (VText version) S \/
   (arguments <> [] \/ keywords <> []) /\ m S = PDone (VRes RNull) (mk_py (lib S) (none_refs S) (Some X_TypeError))).
Proof.
  intros E version args kw S. eexists. split; [reflexivity|]. destruct args as [|x l]; [destruct kw as [|y k]|].
  - left. repeat split.
  - right. split; [right; discriminate|reflexivity].
  - right. split; [left; discriminate|reflexivity].
Qed.

Lemma object_methods : forall E a self name arguments keywords,
  (name <> chars "update" -> name <> chars "finalize" -> object_call E a self name arguments keywords = None) /\
  (forall x, passed [chars "data"] [x] arguments keywords ->
     object_call E a self (chars "update") arguments keywords = Some (py_update E a self (Some x))) /\
  object_call E a self (chars "finalize") [] [] = Some (py_finalize E a self).
Proof.
  intros E a self name args kw. split; [|split].
  - intros H1 H2. unfold object_call, find_method. cbn [context_methods map fst snd find_name].
    destruct (same_name name _) eqn:Q1; [apply same_name_eq in Q1; contradiction|].
    destruct (same_name name (SumHandle.literal "finalize")) eqn:Q2; [apply same_name_eq in Q2; contradiction|]. reflexivity.
  - intros x P. unfold object_call. change (find_method (chars "update") (context_methods a)) with (Some (M_update a, 3)).
    cbn [obind fst snd]. unfold run_method. change (SumHandle.literal "data") with (chars "data").
    now rewrite (parse_passed _ _ _ _ nodup1 P).
  - reflexivity.
Qed.

Lemma methods_refused : forall E a self arguments keywords S, NoDup (map fst keywords) ->
  ((forall x, ~ passed [chars "data"] [x] arguments keywords) ->
   exists m, object_call E a self (chars "update") arguments keywords = Some m /\
   m S = PDone RNull (mk_py (lib S) (none_refs S) (Some X_TypeError))) /\
  (arguments <> [] \/ keywords <> [] ->
   exists m, object_call E a self (chars "finalize") arguments keywords = Some m /\
   m S = PDone RNull (mk_py (lib S) (none_refs S) (Some X_TypeError))).
Proof.
  intros E a self args kw S D. split; intros H.
  - unfold object_call. change (find_method (chars "update") (context_methods a)) with (Some (M_update a, 3)).
    cbn [obind fst snd]. eexists. split; [reflexivity|]. unfold run_method. change (SumHandle.literal "data") with (chars "data").
    destruct (parse_arguments _ args kw) as [[|x [|y l]]|] eqn:P; try reflexivity.
    exfalso. apply (H x). exact (parse_only_passed _ _ _ _ nodup1 D P).
  - unfold object_call. change (find_method (chars "finalize") (context_methods a)) with (Some (M_finalize a, 4)).
    cbn [obind fst snd]. eexists. split; [reflexivity|]. destruct args as [|x l]; [destruct kw as [|y k]|]; try reflexivity.
    destruct H; congruence.
Qed.

(* ------------------------------------------------------- initialisation *)



Lemma init_result : forall create ready add s,
  let r := fst (init_module create ready add s) in let s' := snd (init_module create ready add s) in
  (r = true <-> create = true /\ forall a, ready a = true) /\
  gil s' = gil s /\
  (r = true -> module_refs s' = module_refs s /\ (forall a, tp_new s' a = true) /\
     attributes s' = attributes s ++ map (fun a => (alg_name a ++ chars "_context", a)) (filter add [MD5; SHA1; SHA224; SHA256; SHA512]) /\
     (forall a, type_refs s' a = (type_refs s a + if add a then 0 else 1)%Z)).
Proof.
  intros create ready add s. destruct create; [|cbn; split; [split; [discriminate|intros [H _]; discriminate]|split; [reflexivity|discriminate]]].
  unfold init_module, setup_type. cbn [negb].
  destruct (ready MD5) eqn:R1; cbn [negb fst snd]; [|split; [split; [discriminate|intros [_ H]; specialize (H MD5); congruence]|split; [cbn; lia|discriminate]]].
  destruct (ready SHA1) eqn:R2; cbn [negb fst snd]; [|split; [split; [discriminate|intros [_ H]; specialize (H SHA1); congruence]|split; [destruct (add MD5); cbn; lia|discriminate]]].
  destruct (ready SHA224) eqn:R3; cbn [negb fst snd]; [|split; [split; [discriminate|intros [_ H]; specialize (H SHA224); congruence]|split; [destruct (add MD5), (add SHA1); cbn; lia|discriminate]]].
  destruct (ready SHA256) eqn:R4; cbn [negb fst snd]; [|split; [split; [discriminate|intros [_ H]; specialize (H SHA256); congruence]|split; [destruct (add MD5), (add SHA1), (add SHA224); cbn; lia|discriminate]]].
  destruct (ready SHA512) eqn:R5; cbn [negb fst snd]; [|split; [split; [discriminate|intros [_ H]; specialize (H SHA512); congruence]|split; [destruct (add MD5), (add SHA1), (add SHA224), (add SHA256); cbn; lia|discriminate]]].
  split; [split; [intros _; split; [reflexivity|intros []; assumption]|reflexivity]|].
  cbn [filter].
  destruct (add MD5) eqn:A1, (add SHA1) eqn:A2, (add SHA224) eqn:A3, (add SHA256) eqn:A4, (add SHA512) eqn:A5;
    (split; [cbn; lia|]; intros _; split; [cbn; lia|]; split; [intros []; reflexivity|];
     split; [cbn [attributes add_attribute ref_type set_tp_new lock hold_module map]; rewrite <- ?app_assoc, ?app_nil_r; reflexivity|];
     intros []; cbn; rewrite ?A1, ?A2, ?A3, ?A4, ?A5; lia).
Qed.

Lemma init_failed : forall ready add s, (exists a, ready a = false) ->
  module_refs (snd (init_module true ready add s)) = (module_refs s + 1)%Z.
Proof.
  intros ready add s (a & H). unfold init_module, setup_type. cbn [negb].
  destruct (ready MD5) eqn:R1; [|reflexivity]. cbn [negb fst snd].
  destruct (ready SHA1) eqn:R2; [|destruct (add MD5); reflexivity]. cbn [negb fst snd].
  destruct (ready SHA224) eqn:R3; [|destruct (add MD5), (add SHA1); reflexivity]. cbn [negb fst snd].
  destruct (ready SHA256) eqn:R4; [|destruct (add MD5), (add SHA1), (add SHA224); reflexivity]. cbn [negb fst snd].
  destruct (ready SHA512) eqn:R5; [|destruct (add MD5), (add SHA1), (add SHA224), (add SHA256); reflexivity].
  destruct a; congruence.
Qed.
