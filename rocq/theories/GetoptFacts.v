(* Proofs about hmactools_getopt. *)
From Coq Require Import Arith NArith ZArith List Bool Lia.
From Verif Require Import Words Machine Context Vocab ToolVocab SumHandle SumVocab SumTheorems Getopt GetoptVocab.
Import ListNotations.
Open Scope N_scope.

(* the part of the function after the letter was found *)
Definition letter (strchr : bool) (argv : list (list N)) (options : list N) (argument_value : nat * nat) (g : getopt_state)
  : option (Z * getopt_state) :=
      c <-? char_at argv argument_value;
      let g := set_optopt c g in
      let option_value := search_character strchr c options in
      let argument_value := (fst argument_value, S (snd argument_value)) in
      if (c =? 58) || (match option_value with None => true | Some _ => false end)
      then
        d <-? char_at argv argument_value;
        Some (63%Z, if d =? 0 then set_optind (S (optind g)) g else g)
      else
        v <-? option_value;
        o <-? nth_error (options ++ [0]) (S v);
        d <-? char_at argv argument_value;
        if negb (o =? 58) then
          let g := set_optarg None g in
          Some (Z.of_N c, if d =? 0 then set_optind (S (optind g)) g else set_next_option (Some argument_value) g)
        else if negb (d =? 0) then
          Some (Z.of_N c, set_optind (S (optind g)) (set_optarg (Some argument_value) g))
        else
          let g := set_optind (S (optind g)) g in
          if Nat.leb (length argv) (optind g) then Some (58%Z, g)
          else Some (Z.of_N c, set_optind (S (optind g)) (set_optarg (Some (optind g, 0%nat)) g)).

Lemma getopt_next : forall strchr argv options g p, next_option g = Some p ->
  hmactools_getopt strchr argv options g = letter strchr argv options p (set_next_option None g).
Proof. intros strchr argv options g p H. unfold hmactools_getopt. rewrite H. reflexivity. Qed.

Lemma getopt_end : forall strchr argv options g, next_option g = None -> (length argv <= optind g)%nat ->
  hmactools_getopt strchr argv options g = Some ((-1)%Z, g).
Proof. intros strchr argv options g H L. unfold hmactools_getopt. rewrite H. apply Nat.leb_le in L. rewrite L. reflexivity. Qed.

Lemma skipn_head : forall (A : Type) n (l : list A) x t, skipn n l = x :: t -> nth_error l n = Some x /\ skipn (S n) l = t /\ (n < length l)%nat.
Proof.
  induction n as [|n IH]; intros [|y l] x t H; try discriminate.
  - cbn in H. injection H as -> ->. repeat split. cbn. lia.
  - cbn [skipn] in H. destruct (IH l x t H) as (A1 & A2 & A3). repeat split; [exact A1|exact A2|cbn; lia].
Qed.

Lemma char_here : forall argv i t off c g, nth_error argv i = Some t -> skipn off t = c :: g -> char_at argv (i, off) = Some c.
Proof.
  intros argv i t off c g H S. unfold char_at. cbn [fst snd]. rewrite H. cbn [obind]. destruct (skipn_head _ _ _ _ _ S) as (A & _ & L).
  rewrite nth_error_app1 by exact L. exact A.
Qed.
Lemma char_end : forall argv i t off, nth_error argv i = Some t -> skipn off t = [] -> (off <= length t)%nat -> char_at argv (i, off) = Some 0.
Proof.
  intros argv i t off H S L. unfold char_at. cbn [fst snd]. rewrite H. cbn [obind]. assert (off = length t).
  { assert (length (skipn off t) = 0%nat) by now rewrite S. rewrite skipn_length in H0. lia. }
  subst off. rewrite nth_error_app2 by lia. rewrite Nat.sub_diag. reflexivity.
Qed.

Lemma getopt_operand : forall strchr argv options g a args, next_option g = None -> skipn (optind g) argv = a :: args -> argument a ->
  hd_error a <> Some 45 -> hmactools_getopt strchr argv options g = Some ((-1)%Z, g).
Proof.
  intros strchr argv options g a args H S Ha D. destruct (skipn_head _ _ _ _ _ S) as (A & _ & L). unfold hmactools_getopt. rewrite H.
  apply Nat.leb_gt in L. rewrite L. destruct a as [|c a].
  - rewrite (char_end _ _ _ 0 A) by (try reflexivity; cbn; lia). reflexivity.
  - rewrite (char_here _ _ _ 0 c a A eq_refl). cbn [obind]. inversion Ha; subst. replace (c =? 0) with false by (symmetry; apply N.eqb_neq; lia).
    replace (c =? 45) with false; [reflexivity|]. symmetry. apply N.eqb_neq. intros ->. now apply D.
Qed.
Lemma getopt_dashes : forall strchr argv options g a args, next_option g = None -> skipn (optind g) argv = (45 :: 45 :: a) :: args ->
  hmactools_getopt strchr argv options g = Some ((-1)%Z, set_optind (S (optind g)) g).
Proof.
  intros strchr argv options g a args H S. destruct (skipn_head _ _ _ _ _ S) as (A & _ & L). unfold hmactools_getopt. rewrite H.
  apply Nat.leb_gt in L. rewrite L. rewrite (char_here _ _ _ 0 45 (45 :: a) A eq_refl), (char_here _ _ _ 1 45 a A eq_refl). reflexivity.
Qed.
Lemma getopt_dash : forall strchr argv options g c a args, next_option g = None -> skipn (optind g) argv = (45 :: c :: a) :: args -> c <> 45 ->
  hmactools_getopt strchr argv options g = letter strchr argv options (optind g, 1%nat) g.
Proof.
  intros strchr argv options g c a args H S D. destruct (skipn_head _ _ _ _ _ S) as (A & _ & L). unfold hmactools_getopt. rewrite H.
  apply Nat.leb_gt in L. rewrite L. rewrite (char_here _ _ _ 0 45 (c :: a) A eq_refl), (char_here _ _ _ 1 c a A eq_refl). cbn [obind].
  apply N.eqb_neq in D. rewrite D. reflexivity.
Qed.

Lemma index_split : forall c l, match index_of c l with
  | Some i => exists x y, l = x ++ c :: y /\ ~ In c x /\ length x = i
  | None => ~ In c l
  end.
Proof.
  induction l as [|x l IH]; cbn; [tauto|]. destruct (N.eqb_spec x c) as [->|D].
  - exists [], l. cbn. auto.
  - destruct (index_of c l) as [i|]; cbn.
    + destruct IH as (u & v & -> & N1 & <-). exists (x :: u), v. cbn. split; [reflexivity|]. split; [intros [Q|Q]; [contradiction|now apply N1]|reflexivity].
    + intros [Q|Q]; contradiction.
Qed.

Inductive meaning (options : list N) (c : N) : Type :=
| M_unknown : unknown options c -> meaning options c
| M_flag : is_flag options c -> meaning options c
| M_value : takes_value options c -> meaning options c.

(* what the search finds *)
Definition found (strchr : bool) (options : list N) (c : N) : option N :=
  if (c =? 58) || (match search_character strchr c options with None => true | Some _ => false end) then None
  else v <-? search_character strchr c options; nth_error (options ++ [0]) (S v).

Lemma nth_after : forall (A : Type) (x : list A) c y, nth_error (x ++ c :: y) (S (length x)) = nth_error y 0.
Proof. induction x as [|a x IH]; intros c y; [reflexivity|exact (IH c y)]. Qed.

Lemma search_result : forall strchr options c, options_ok options -> c <> 0 ->
  if (c =? 58) || (match search_character strchr c options with None => true | Some _ => false end) then unknown options c
  else exists v o, search_character strchr c options = Some v /\ nth_error (options ++ [0]) (S v) = Some o /\
    (if o =? 58 then takes_value options c else is_flag options c) /\ c <> 63.
Proof.
  intros strchr options c O Z. destruct (N.eqb_spec c 58) as [->|D]; [now left|]. cbn [orb].
  assert (X : index_of c options = search_character strchr c options).
  { unfold search_character. destruct strchr; [|reflexivity]. clear - Z. induction options as [|x l IH].
    - cbn. destruct c; [congruence|reflexivity].
    - cbn. destruct (x =? c); [reflexivity|]. now rewrite IH. }
  rewrite <- X. pose proof (index_split c options) as Y. destruct (index_of c options) as [v|]; [|now right].
  destruct Y as (x & y & -> & N1 & <-). exists (length x). assert (C : c <> 63).
  { unfold options_ok in O. rewrite Forall_forall in O. apply (O c). apply in_or_app. right. now left. }
  rewrite <- app_assoc. cbn [app]. rewrite nth_after. destruct y as [|o y].
  - exists 0. split; [reflexivity|]. split; [reflexivity|]. split; [|exact C]. cbn. split; [exact D|]. exists x, []. split; [reflexivity|]. split; [exact N1|discriminate].
  - exists o. split; [reflexivity|]. split; [reflexivity|]. split; [|exact C]. destruct (N.eqb_spec o 58) as [->|Do].
    + split; [exact D|]. exists x, y. now split.
    + split; [exact D|]. exists x, (o :: y). split; [reflexivity|]. split; [exact N1|]. cbn. congruence.
Qed.

(* the variables stand at what is left of a group and of the arguments *)
Definition at_group (argv : list (list N)) (g : getopt_state) (grp : list N) (args : list (list N)) : Prop :=
  match grp with
  | [] => next_option g = None /\ skipn (optind g) argv = args /\ (optind g <= length argv)%nat
  | _ => exists off t, next_option g = Some (optind g, off) /\ nth_error argv (optind g) = Some t /\ skipn off t = grp /\ skipn (S (optind g)) argv = args
  end.

Lemma skipn_next : forall (A : Type) n (l : list A) c g, skipn n l = c :: g -> skipn (S n) l = g.
Proof. intros A n l c g H. exact (proj1 (proj2 (skipn_head _ _ _ _ _ H))). Qed.

Lemma letter_ok : forall strchr argv options g off t c grp args, options_ok options -> c <> 0 -> ~ In 0 grp ->
  next_option g = None -> nth_error argv (optind g) = Some t -> skipn off t = c :: grp -> skipn (S (optind g)) argv = args ->
  exists r g', letter strchr argv options (optind g, off) g = Some (r, g') /\ (optind g' <= length argv)%nat /\
  ((r = 63%Z /\ unknown options c /\ (if match grp with [] => true | _ => false end then True else next_option g' = None /\ optind g' = optind g)) \/
   (r = Z.of_N c /\ c <> 58 /\ c <> 63 /\ is_flag options c /\ optarg g' = None /\ at_group argv g' grp args) \/
   (r = Z.of_N c /\ c <> 58 /\ c <> 63 /\ takes_value options c /\ grp <> [] /\ (exists p, optarg g' = Some p /\ string_at argv p = Some grp) /\ at_group argv g' [] args) \/
   (r = Z.of_N c /\ c <> 58 /\ c <> 63 /\ takes_value options c /\ grp = [] /\ exists a args', args = a :: args' /\
      (exists p, optarg g' = Some p /\ string_at argv p = Some a) /\ at_group argv g' [] args') \/
   (r = 58%Z /\ takes_value options c /\ grp = [] /\ args = [])).
Proof.
  intros strchr argv options g off t c grp args O Z NZ Hn Ht Sk Sa. unfold letter. rewrite (char_here _ _ _ _ _ _ Ht Sk). cbn [obind].
  pose proof (skipn_next _ _ _ _ _ Sk) as Sk'. destruct (skipn_head _ _ _ _ _ Sk) as (_ & _ & L).
  assert (Li : (optind g < length argv)%nat) by (apply nth_error_Some; congruence).
  assert (D : exists d, char_at argv (optind g, S off) = Some d /\ (d =? 0) = match grp with [] => true | _ => false end).
  { destruct grp as [|d grp].
    - exists 0. split; [apply (char_end _ _ _ _ Ht Sk'); lia|reflexivity].
    - exists d. split; [exact (char_here _ _ _ _ _ _ Ht Sk')|]. apply N.eqb_neq. intros ->. apply NZ. now left. }
  destruct D as (d & Hd & Zd). pose proof (search_result strchr options c O Z) as SR. cbv zeta. cbn [fst snd].
  assert (Str : string_at argv (optind g, S off) = Some grp).
  { unfold string_at. cbn [fst snd]. rewrite Ht. cbn [obind]. replace (Nat.leb (S off) (length t)) with true by (symmetry; apply Nat.leb_le; lia). now rewrite Sk'. }
  assert (Le : skipn (S (optind g)) argv = args /\ (S (optind g) <= length argv)%nat) by (split; [exact Sa|lia]).
  destruct ((c =? 58) || match search_character strchr c options with Some _ => false | None => true end) eqn:B.
  - rewrite Hd. cbn [obind]. eexists _, _. split; [reflexivity|]. split; [rewrite Zd; destruct grp; cbn; lia|]. left. split; [reflexivity|]. split; [exact SR|].
    rewrite Zd. destruct grp; [exact I|]. split; [exact Hn|reflexivity].
  - destruct SR as (v & o & -> & Ho & T & Q). apply orb_false_iff in B as (B & _). apply N.eqb_neq in B. cbn [obind]. rewrite Ho. cbn [obind]. rewrite Hd. cbn [obind].
    destruct (o =? 58); cbn [negb].
    + rewrite Zd. destruct grp as [|e grp]; cbn [negb].
      * change (optind (set_optind (S (optind (set_optopt c g))) (set_optopt c g))) with (S (optind g)). destruct (Nat.leb_spec (length argv) (S (optind g))) as [E|E].
        -- eexists _, _. split; [reflexivity|]. split; [try (rewrite Zd; destruct grp); cbn; lia|]. right. right. right. right. split; [reflexivity|]. split; [exact T|]. split; [reflexivity|]. rewrite <- Sa. now apply skipn_all2.
        -- eexists _, _. split; [reflexivity|]. split; [try (rewrite Zd; destruct grp); cbn; lia|]. right. right. right. left. split; [reflexivity|]. split; [exact B|]. split; [exact Q|]. split; [exact T|]. split; [reflexivity|].
           destruct args as [|a args']. { exfalso. assert (X : length (skipn (S (optind g)) argv) = 0%nat) by now rewrite Sa. rewrite skipn_length in X. lia. }
           exists a, args'. split; [reflexivity|]. destruct (skipn_head _ _ _ _ _ Sa) as (A1 & A2 & A3). split.
           ++ eexists. split; [reflexivity|]. unfold string_at. cbn [fst snd set_optarg set_optind set_optopt optind]. rewrite A1. reflexivity.
           ++ split; [exact Hn|]. split; [exact A2|exact E].
      * eexists _, _. split; [reflexivity|]. split; [try (rewrite Zd; destruct grp); cbn; lia|]. right. right. left. split; [reflexivity|]. split; [exact B|]. split; [exact Q|]. split; [exact T|]. split; [discriminate|]. split.
        -- eexists. split; [reflexivity|exact Str].
        -- split; [exact Hn|exact Le].
    + eexists _, _. split; [reflexivity|]. split; [try (rewrite Zd; destruct grp); cbn; lia|]. right. left. split; [reflexivity|]. split; [exact B|]. split; [exact Q|]. split; [exact T|]. rewrite Zd. destruct grp as [|e grp].
      * split; [reflexivity|]. split; [exact Hn|exact Le].
      * split; [reflexivity|]. exists (S off), t. split; [reflexivity|]. split; [exact Ht|]. split; [exact Sk'|exact Sa].
Qed.

Definition no_dash (args : list (list N)) : Prop := ~ In [45] args.

Lemma collect_step : forall n strchr argv options g r g', hmactools_getopt strchr argv options g = Some (r, g') ->
  collect (S n) strchr argv options g =
  if ((r =? -1) || (r =? 63) || (r =? 58))%Z then Some ([], r, g') else
  match (match optarg g' with None => Some None | Some p => option_map Some (string_at argv p) end), collect n strchr argv options g' with
  | Some v, Some (items, last, g'') => Some ((Z.to_N r, v) :: items, last, g'')
  | _, _ => None
  end.
Proof. intros n strchr argv options g r g' H. cbn [collect]. now rewrite H. Qed.

Lemma option_code : forall c, c <> 58 -> c <> 63 -> ((Z.of_N c =? -1) || (Z.of_N c =? 63) || (Z.of_N c =? 58))%Z = false.
Proof.
  intros c A B. apply orb_false_iff. split; [apply orb_false_iff; split|]; apply Z.eqb_neq; [lia| |]; intros Q; [apply B|apply A]; lia.
Qed.

Lemma parse_ok : forall strchr options argv, options_ok options -> forall n grp args g, (length grp + size_of args < n)%nat ->
  at_group argv g grp args -> ~ In 0 grp -> Forall argument args -> no_dash args ->
  exists items e rest g', parsed options grp args items e rest /\ collect n strchr argv options g = Some (items, code_of e, g') /\
  (optind g' <= length argv)%nat /\ (e = Operands -> skipn (optind g') argv = rest).
Proof.
  intros strchr options argv O. induction n as [|n IH]; intros grp args g M P NZ F ND; [lia|].
  (* a letter, however it was found *)
  assert (X : forall c grp args g off t, c <> 0 -> ~ In 0 grp -> (length grp + size_of args < n)%nat -> Forall argument args -> no_dash args ->
    next_option g = None -> nth_error argv (optind g) = Some t -> skipn off t = c :: grp -> skipn (S (optind g)) argv = args ->
    forall g0, hmactools_getopt strchr argv options g0 = letter strchr argv options (optind g, off) g ->
    exists items e rest g', parsed options (c :: grp) args items e rest /\ collect (S n) strchr argv options g0 = Some (items, code_of e, g') /\
    (optind g' <= length argv)%nat /\ (e = Operands -> skipn (optind g') argv = rest)).
  { clear grp args g M P NZ F ND. intros c grp args g off t Z NZ M F ND Hn Ht Sk Sa g0 Hg.
    destruct (letter_ok strchr argv options g off t c grp args O Z NZ Hn Ht Sk Sa) as (r & g' & H & Bd & C). rewrite H in Hg.
    rewrite (collect_step n _ _ _ _ _ _ Hg).
    destruct C as [(-> & U & _)|[(-> & C1 & C2 & T & Oa & P')|[(-> & C1 & C2 & T & G & (p & Oa & Sp) & P')|[(-> & C1 & C2 & T & -> & a & args' & -> & (p & Oa & Sp) & P')|(-> & T & -> & ->)]]]].
    - exists [], Unknown, [], g'. split; [now constructor|]. split; [reflexivity|]. split; [exact Bd|discriminate].
    - destruct (IH grp args g' M P' NZ F ND) as (items & e & rest & g'' & A1 & A2 & A3). exists ((c, None) :: items), e, rest, g''.
      split; [now constructor|]. rewrite (option_code c C1 C2), Oa, A2, N2Z.id. now split.
    - destruct (IH [] args g') as (items & e & rest & g'' & A1 & A2 & A3); [cbn; lia|exact P'|intros []|exact F|exact ND|].
      exists ((c, Some grp) :: items), e, rest, g''. split; [now constructor|]. rewrite (option_code c C1 C2), Oa, Sp, A2, N2Z.id. now split.
    - inversion F; subst. destruct (IH [] args' g') as (items & e & rest & g'' & A1 & A2 & A3); [cbn [length size_of fold_right] in M |- *; unfold size_of in M |- *; cbn [fold_right] in M; lia|exact P'|intros []|assumption|intros Q; apply ND; now right|].
      exists ((c, Some a) :: items), e, rest, g''. split; [now constructor|]. rewrite (option_code c C1 C2), Oa, Sp, A2, N2Z.id. now split.
    - exists [], Missing, [], g'. split; [now constructor|]. split; [reflexivity|]. split; [exact Bd|discriminate]. }
  destruct grp as [|c grp].
  - destruct P as (Hn & Sk & L). destruct args as [|a args].
    + assert (Ln : (length argv <= optind g)%nat). { assert (Q : length (skipn (optind g) argv) = 0%nat) by now rewrite Sk. rewrite skipn_length in Q. lia. }
      exists [], Operands, [], g. split; [constructor|]. rewrite (collect_step n _ _ _ _ _ _ (getopt_end strchr argv options g Hn Ln)). split; [reflexivity|]. now split.
    + pose proof (Forall_inv F) as Fa. pose proof (Forall_inv_tail F) as Fr. destruct a as [|d a].
      * exists [], Operands, ([] :: args), g. split; [now constructor|].
        rewrite (collect_step n _ _ _ _ _ _ (getopt_operand strchr argv options g [] args Hn Sk Fa ltac:(discriminate))). split; [reflexivity|]. now split.
      * destruct (N.eq_dec d 45) as [->|D45].
        2:{ exists [], Operands, ((d :: a) :: args), g. split; [constructor; cbn; congruence|].
            rewrite (collect_step n _ _ _ _ _ _ (getopt_operand strchr argv options g (d :: a) args Hn Sk Fa ltac:(cbn; congruence))). split; [reflexivity|]. now split. }
        destruct a as [|c a]; [elim ND; now left|]. destruct (N.eq_dec c 45) as [->|C45].
        -- exists [], Operands, args, (set_optind (S (optind g)) g). split; [constructor|].
           rewrite (collect_step n _ _ _ _ _ _ (getopt_dashes strchr argv options g a args Hn Sk)). split; [reflexivity|].
           destruct (skipn_head _ _ _ _ _ Sk) as (_ & A2 & A3). split; [cbn; lia|intros _; exact A2].
        -- destruct (skipn_head _ _ _ _ _ Sk) as (A1 & A2 & A3). pose proof (Forall_inv (Forall_inv_tail Fa)) as Fc. pose proof (Forall_inv_tail (Forall_inv_tail Fa)) as Fg. cbv beta in Fc.
           destruct (X c a args g 1%nat (45 :: c :: a)) with (g0 := g) as (items & e & rest & g' & B1 & B2 & B3); try assumption; try reflexivity.
           ++ lia.
           ++ rewrite Forall_forall in Fg. intros Q. specialize (Fg 0 Q). lia.
           ++ unfold size_of in M |- *. cbn [fold_right length] in M. lia.
           ++ intros Q. apply ND. now right.
           ++ now apply (getopt_dash _ _ _ _ c a args).
           ++ exists items, e, rest, g'. split; [now constructor|]. now split.
  - destruct P as (off & t & Hn & Ht & Sk & Sa). apply (X c grp args (set_next_option None g) off t); try assumption; try reflexivity.
    + intros ->. apply NZ. now left.
    + intros Q. apply NZ. now right.
    + cbn [length] in M. lia.
    + now apply getopt_next.
Qed.

Lemma getopt_parses : forall strchr options program args, options_ok options -> Forall argument args -> ~ In [45] args ->
  exists items e rest g, parsed options [] args items e rest /\
  collect (S (size_of args)) strchr (program :: args) options getopt_start = Some (items, code_of e, g) /\
  (optind g <= length (program :: args))%nat /\ (e = Operands -> skipn (optind g) (program :: args) = rest).
Proof.
  intros strchr options program args O F ND. destruct (parse_ok strchr options (program :: args) O (S (size_of args)) [] args getopt_start) as (items & e & rest & g & A & B & C).
  - cbn. lia.
  - split; [reflexivity|]. split; [reflexivity|]. cbn. lia.
  - intros [].
  - exact F.
  - exact ND.
  - exists items, e, rest, g. split; [exact A|]. split; [exact B|]. exact C.
Qed.

(* the meaning of arguments is unique *)
Lemma split_unique : forall (c : N) l r l' r', l ++ c :: r = l' ++ c :: r' -> ~ In c l -> ~ In c l' -> r = r'.
Proof.
  induction l as [|x l IH]; intros r [|y l'] r' H A B; cbn in H.
  - now injection H.
  - injection H as -> H. elim B. now left.
  - injection H as -> H. elim A. now left.
  - injection H as -> H. apply (IH r l' r' H); intros Q; [apply A|apply B]; now right.
Qed.
Lemma flag_value : forall options c, is_flag options c -> takes_value options c -> False.
Proof.
  intros options c (_ & l & r & -> & N1 & H) (_ & l' & r' & Q & N2). apply (split_unique c) in Q; [|assumption|assumption]. subst r. now apply H.
Qed.
Lemma flag_known : forall options c, is_flag options c -> unknown options c -> False.
Proof. intros options c (D & l & r & -> & _) [Q|Q]; [contradiction|]. apply Q, in_or_app. right. now left. Qed.
Lemma value_known : forall options c, takes_value options c -> unknown options c -> False.
Proof. intros options c (D & l & r & -> & _) [Q|Q]; [contradiction|]. apply Q, in_or_app. right. now left. Qed.

Lemma parsed_unique : forall options grp args items e rest, parsed options grp args items e rest ->
  forall items' e' rest', parsed options grp args items' e' rest' -> items' = items /\ e' = e /\ (e = Operands -> rest' = rest).
Proof.
  induction 1; intros items' e' rest' H'; inversion H'; subst; clear H'; try (now auto); try contradiction; try (exfalso; now eauto using flag_value, flag_known, value_known);
    try (cbn in *; congruence); try (match goal with P : parsed _ _ _ _ _ _, I : forall _ _ _, parsed _ _ _ _ _ _ -> _ |- _ => destruct (I _ _ _ P) as (-> & -> & ?) end; now auto).
Qed.

(* ------------------------------------------------------------- what goes wrong *)

Lemma dash_undefined : forall strchr options argv g, options_ok options -> next_option g = None -> nth_error argv (optind g) = Some [45] ->
  hmactools_getopt strchr argv options g = None.
Proof.
  intros strchr options argv g O Hn Ht. unfold hmactools_getopt. rewrite Hn. assert (L : (optind g < length argv)%nat) by (apply nth_error_Some; congruence).
  apply Nat.leb_gt in L. rewrite L. unfold char_at. cbn [fst snd]. rewrite Ht. cbn [obind app nth_error negb N.eqb Pos.eqb]. cbv beta iota zeta. cbn [fst snd]. rewrite Ht. cbn [obind app nth_error].
  change (0 =? 58) with false. cbn [orb].
  destruct (search_character strchr 0 options) as [v|] eqn:Sr; [|reflexivity]. cbn [obind].
  pose proof (index_split 0 (if strchr then options ++ [0] else options)) as I. unfold search_character in Sr. rewrite Sr in I.
  destruct I as (x & y & Q & N1 & <-).
  assert (No : ~ In 0 options) by (unfold options_ok in O; rewrite Forall_forall in O; intros Hi; specialize (O 0 Hi); lia).
  destruct strchr.
  - change (match options ++ [0] with [] => None | _ :: l => nth_error l (length x) end) with (nth_error (options ++ [0]) (S (length x))).
    replace (nth_error (options ++ [0]) (S (length x))) with (@None N); [reflexivity|]. symmetry. apply nth_error_None. rewrite Q, app_length. cbn.
    assert (length y = 0%nat); [|lia]. destruct y as [|z y]; [reflexivity|]. exfalso. 
    assert (Q' : options ++ 0 :: [] = x ++ 0 :: (z :: y)) by exact Q. apply (split_unique 0) in Q'; [discriminate|assumption|assumption].
  - elim No. rewrite Q. apply in_or_app. right. now left.
Qed.

Lemma unknown_sticks : forall strchr options argv g c d t rest, options_ok options -> unknown options c -> c <> 0 -> c <> 45 -> d <> 0 -> next_option g = None ->
  skipn (optind g) argv = (45 :: c :: d :: t) :: rest ->
  exists g', hmactools_getopt strchr argv options g = Some (63%Z, g') /\ next_option g' = None /\ optind g' = optind g.
Proof.
  intros strchr options argv g c d t rest O U Z C45 D0 Hn Sk. rewrite (getopt_dash _ _ _ _ c (d :: t) rest Hn Sk C45).
  destruct (skipn_head _ _ _ _ _ Sk) as (A1 & A2 & A3).
  unfold letter. rewrite (char_here _ _ _ 1 c (d :: t) A1 eq_refl). cbn [obind]. cbv zeta. cbn [fst snd]. pose proof (search_result strchr options c O Z) as SR.
  destruct ((c =? 58) || match search_character strchr c options with Some _ => false | None => true end) eqn:B.
  - rewrite (char_here _ _ _ 2 d t A1 eq_refl). cbn [obind]. apply N.eqb_neq in D0. rewrite D0. eexists. split; [reflexivity|]. now split.
  - exfalso. destruct SR as (v & o & _ & _ & T & _). destruct (o =? 58); [now apply (value_known options c)|now apply (flag_known options c)].
Qed.


Lemma unknown_forever : forall strchr options argv g c d t rest n, options_ok options -> unknown options c -> c <> 0 -> c <> 45 -> d <> 0 -> next_option g = None ->
  skipn (optind g) argv = (45 :: c :: d :: t) :: rest ->
  exists g', call_again n strchr argv options g = Some (63%Z, g') /\ optind g' = optind g.
Proof.
  intros strchr options argv g c d t rest n O U Z C45 D0. revert g. induction n as [|n IH]; intros g Hn Sk;
    destruct (unknown_sticks strchr options argv g c d t rest O U Z C45 D0 Hn Sk) as (g' & H & Hn' & E); cbn [call_again]; rewrite H.
  - exists g'. now split.
  - rewrite <- E in Sk. destruct (IH g' Hn' Sk) as (g'' & H' & E'). exists g''. split; [exact H'|congruence].
Qed.

(* ------------------------------------------------------------- main *)

Lemma parsed_items : forall options grp args items e rest, parsed options grp args items e rest ->
  Forall (fun i => match snd i with Some _ => takes_value options (fst i) | None => is_flag options (fst i) end) items.
Proof. induction 1; try constructor; cbn; assumption. Qed.

Lemma parsed_chars : forall options grp args items e rest, parsed options grp args items e rest -> Forall (fun c => c <> 0) grp -> Forall argument args ->
  Forall (fun i => match snd i with Some t => Forall (fun c => c <> 0) t | None => True end) items.
Proof.
  assert (X : forall t, argument t -> Forall (fun c => c <> 0) t) by (intros t; apply Forall_impl; lia).
  induction 1; intros G F; try constructor; cbn [snd]; try exact I.
  - apply IHparsed; [|exact (Forall_inv_tail F)]. apply X. exact (Forall_inv_tail (Forall_inv F)).
  - apply IHparsed; [exact (Forall_inv_tail G)|exact F].
  - exact (Forall_inv_tail G).
  - apply IHparsed; [constructor|exact F].
  - exact (X _ (Forall_inv F)).
  - apply IHparsed; [constructor|exact (Forall_inv_tail F)].
Qed.

Lemma flags : forall c, is_flag hmacsum_options c -> c = 104 \/ c = 118 \/ c = 86.
Proof.
  intros c (D & l & r & Q & N1 & H). unfold hmacsum_options in Q. do 7 (destruct l as [|? l]; [cbn in Q; injection Q as <- <-; cbn in H; try congruence; tauto|injection Q as <- Q]).
  destruct l; discriminate.
Qed.
Lemma values : forall c, takes_value hmacsum_options c -> c = 100 \/ c = 112.
Proof.
  intros c (D & l & r & Q & N1). unfold hmacsum_options in Q. do 7 (destruct l as [|? l]; [cbn in Q; try (injection Q as <- Q); try discriminate; tauto|injection Q as <- Q]).
  destruct l; discriminate.
Qed.

(* the value that main has after the options *)
Definition keep (c : N) (v : option (list N)) (items : list (N * option (list N))) : option (list N) :=
  fold_left (fun v i => if fst i =? c then snd i else v) items v.

Lemma keep_last : forall c items v, (forall x, In (c, x) items -> x <> None) ->
  (keep c v items = v /\ forall x, ~ In (c, x) items) \/
  (exists l r, items = l ++ (c, keep c v items) :: r /\ keep c v items <> None /\ forall x, ~ In (c, x) r).
Proof.
  intros c items. induction items as [|[d x] items IH]; intros v H.
  - left. split; [reflexivity|]. intros x [].
  - cbn [keep fold_left fst snd]. fold (keep c (if d =? c then x else v) items).
    destruct (IH (if d =? c then x else v)) as [(A & B)|(l & r & A & B & C)].
    + intros y Hy. apply H. now right.
    + rewrite A. destruct (N.eqb_spec d c) as [->|D].
      * right. exists [], items. split; [reflexivity|]. split; [apply H; now left|exact B].
      * left. split; [reflexivity|]. intros y [Q|Q]; [injection Q; congruence|now apply (B y)].
    + right. exists ((d, x) :: l), r. split; [cbn [app]; now rewrite A at 1|]. now split.
Qed.
Lemma keep_none : forall c items, (forall x, In (c, x) items -> x <> None) -> last_value c items (keep c None items).
Proof. intros c items H. exact (keep_last c items None H). Qed.

Lemma main_options_ok : forall strchr argv n g items code g' size types, collect n strchr argv hmacsum_options g = Some (items, code, g') ->
  Forall (fun i => match snd i with Some _ => takes_value hmacsum_options (fst i) | None => is_flag hmacsum_options (fst i) end) items ->
  (optind g' <= length argv)%nat -> argv <> [] ->
  (informs items /\ main_options n strchr argv g size types = Some (Exit 0)) \/
  (~ informs items /\ (code = 63 \/ code = 58)%Z /\ main_options n strchr argv g size types = Some (Exit 1)) \/
  (~ informs items /\ code = (-1)%Z /\ skipn (optind g') argv = [] /\ main_options n strchr argv g size types = Some (Exit 1)) \/
  (~ informs items /\ code = (-1)%Z /\ exists source more, skipn (optind g') argv = source :: more /\
     main_options n strchr argv g size types = Some (Run (keep 112 size items) (keep 100 types items) source)).
Proof.
  intros strchr argv. induction n as [|n IH]; intros g items code g' size types H F L NE; [discriminate|].
  cbn [collect main_options] in H |- *. change [100; 58; 104; 112; 58; 118; 86] with hmacsum_options.
  destruct (hmactools_getopt strchr argv hmacsum_options g) as [[r g1]|]; [|discriminate]. cbn [obind].
  assert (NI : ~ informs []) by (intros (v & [Q|Q]); exact Q).
  destruct (Z.eqb_spec r (-1)) as [->|R1].
  { cbn [orb] in H. injection H as <- <- <-. right. right. destruct (Nat.eqb_spec (optind g1) (length argv)) as [Q|Q].
    - left. split; [exact NI|]. split; [reflexivity|]. split; [apply skipn_all2; lia|reflexivity].
    - right. split; [exact NI|]. split; [reflexivity|]. destruct (skipn (optind g1) argv) as [|a more] eqn:Sk.
      + exfalso. assert (X : length (skipn (optind g1) argv) = 0%nat) by now rewrite Sk. rewrite skipn_length in X. lia.
      + exists a, more. split; [reflexivity|]. destruct (skipn_head _ _ _ _ _ Sk) as (A & _). rewrite A. reflexivity. }
  destruct ((r =? 63)%Z || (r =? 58)%Z) eqn:B.
  - assert (B' : ((false || (r =? 63) || (r =? 58))%Z) = true) by exact B. rewrite B' in H. injection H as <- <- <-. right. left. split; [exact NI|].
    assert (C : (r = 63 \/ r = 58)%Z) by (apply orb_prop in B as [B|B]; apply Z.eqb_eq in B; auto). split; [exact C|].
    assert (X : exists v, nth_error argv (optind g1 - 1) = Some v).
    { destruct (nth_error argv (optind g1 - 1)) eqn:Q; [eauto|]. apply nth_error_None in Q. destruct argv; [contradiction|]. cbn [length] in *. lia. }
    destruct X as (v & X). destruct C as [-> | ->]; cbn [Z.eqb Pos.eqb]; rewrite X; reflexivity.
  - assert (B' : ((false || (r =? 63) || (r =? 58))%Z) = false) by exact B. rewrite B' in H. clear B B'.
    destruct (match optarg g1 with None => Some None | Some p => option_map Some (string_at argv p) end) as [v|] eqn:V; [|discriminate].
    destruct (collect n strchr argv hmacsum_options g1) as [[[items' last] g'']|] eqn:Co; [|discriminate]. injection H as <- <- <-.
    pose proof (Forall_inv F) as Fi. pose proof (Forall_inv_tail F) as Fr. cbn [fst snd] in Fi.
    assert (Step : forall sz ty, keep 112 size ((Z.to_N r, v) :: items') = keep 112 sz items' -> keep 100 types ((Z.to_N r, v) :: items') = keep 100 ty items' ->
      Z.to_N r <> 104 -> Z.to_N r <> 86 ->
      (informs ((Z.to_N r, v) :: items') /\ main_options n strchr argv g1 sz ty = Some (Exit 0)) \/
      (~ informs ((Z.to_N r, v) :: items') /\ (last = 63 \/ last = 58)%Z /\ main_options n strchr argv g1 sz ty = Some (Exit 1)) \/
      (~ informs ((Z.to_N r, v) :: items') /\ last = (-1)%Z /\ skipn (optind g'') argv = [] /\ main_options n strchr argv g1 sz ty = Some (Exit 1)) \/
      (~ informs ((Z.to_N r, v) :: items') /\ last = (-1)%Z /\ exists source more, skipn (optind g'') argv = source :: more /\
        main_options n strchr argv g1 sz ty = Some (Run (keep 112 size ((Z.to_N r, v) :: items')) (keep 100 types ((Z.to_N r, v) :: items')) source))).
    { intros sz ty K1 K2 D1 D2. rewrite K1, K2. assert (Inf : informs ((Z.to_N r, v) :: items') <-> informs items').
      { split; intros (x & Q).
        - exists x. destruct Q as [[Q|Q]|[Q|Q]]; auto; injection Q; congruence.
        - exists x. destruct Q as [Q|Q]; [left|right]; now right. }
      rewrite Inf. exact (IH g1 items' last g'' sz ty Co Fr L NE). }
    destruct v as [v|].
    + destruct (optarg g1) as [p|]; [|discriminate]. destruct (string_at argv p) as [w|] eqn:Sp; [|discriminate]. cbn [option_map] in V. injection V as ->.
      destruct (values _ Fi) as [C|C].
      * assert (r = 100%Z) by lia. subst r. cbn [Z.eqb Pos.eqb obind]. rewrite Sp. cbn [obind]. apply Step; try reflexivity; discriminate.
      * assert (r = 112%Z) by lia. subst r. cbn [Z.eqb Pos.eqb obind]. rewrite Sp. cbn [obind]. apply Step; try reflexivity; discriminate.
    + destruct (flags _ Fi) as [C|[C|C]].
      * assert (r = 104%Z) by lia. subst r. left. split; [exists None; left; now left|reflexivity].
      * assert (r = 118%Z) by lia. subst r. cbn [Z.eqb Pos.eqb]. apply Step; try reflexivity; discriminate.
      * assert (r = 86%Z) by lia. subst r. left. split; [exists None; right; now left|reflexivity].
Qed.

Lemma collect_more : forall strchr argv options n m g x, (n <= m)%nat -> collect n strchr argv options g = Some x -> collect m strchr argv options g = Some x.
Proof.
  intros strchr argv options. induction n as [|n IH]; intros m g x L H; [discriminate|]. destruct m as [|m]; [lia|]. cbn [collect] in H |- *.
  destruct (hmactools_getopt strchr argv options g) as [[r g']|]; [|discriminate]. destruct ((r =? -1) || (r =? 63) || (r =? 58))%Z; [exact H|].
  destruct (match optarg g' with None => Some None | Some p => option_map Some (string_at argv p) end); [|discriminate].
  destruct (collect n strchr argv options g') as [[[a b] c]|] eqn:Q; [|discriminate]. rewrite (IH m g' (a, b, c)) by (try lia; exact Q). exact H.
Qed.

Lemma hmacsum_options_ok : options_ok hmacsum_options.
Proof. repeat constructor; discriminate. Qed.

Lemma program_from_arguments : forall E strchr split verbose d files signal program args s0, good_state s0 -> (forall name, input_ok (files name)) -> point_or_none d ->
  Forall argument args -> ~ In [45] args ->
  exists items e rest code out s', parsed hmacsum_options [] args items e rest /\
  hmacsum_main E strchr split verbose d files signal (program :: args) s0 = Done (code, out) s' /\
  ((informs items /\ code = 0%Z /\ out = [] /\ s' = s0) \/
   (~ informs items /\ (e <> Operands \/ rest = []) /\ code = 1%Z /\ out = [] /\ s' = s0) \/
   (~ informs items /\ e = Operands /\ exists source more size types, rest = source :: more /\ last_value 112 items size /\ last_value 100 items types /\
    hmacsum E split verbose d (files source) signal (option_map (fun t => (t ++ [0], N.of_nat (length t))) size) types s0 = Done (code, out) s' /\
    size_argument (option_map (fun t => (t ++ [0], N.of_nat (length t))) size))).
Proof.
  intros E strchr split verbose d files signal program args s0 G I P F ND.
  destruct (getopt_parses strchr hmacsum_options program args hmacsum_options_ok F ND) as (items & e & rest & g & A & B & C & D).
  pose proof (parsed_items _ _ _ _ _ _ A) as FI. assert (NE : program :: args <> []) by discriminate.
  assert (V : forall c x, takes_value hmacsum_options c -> In (c, x) items -> x <> None).
  { intros c x T Hx ->. rewrite Forall_forall in FI. specialize (FI _ Hx). cbn in FI. now apply (flag_value hmacsum_options c). }
  assert (V112 : takes_value hmacsum_options 112). { split; [discriminate|]. exists [100; 58; 104], [118; 86]. split; [reflexivity|]. cbn. intros [Q|[Q|[Q|[]]]]; discriminate. }
  assert (V100 : takes_value hmacsum_options 100). { split; [discriminate|]. exists [], [104; 112; 58; 118; 86]. split; [reflexivity|]. intros []. }
  assert (B' : collect (S (size_of (program :: args))) strchr (program :: args) hmacsum_options getopt_start = Some (items, code_of e, g)).
  { apply (collect_more _ _ _ (S (size_of args))); [unfold size_of; cbn [fold_right]; lia|exact B]. }
  unfold hmacsum_main. destruct (main_options_ok strchr _ _ _ items _ g None None B' FI C NE) as [(X & ->)|[(X & Y & ->)|[(X & Y & Z & ->)|(X & Y & source & more & Sk & ->)]]].
  - exists items, e, rest, 0%Z, [], s0. split; [exact A|]. split; [reflexivity|]. left. now repeat split.
  - exists items, e, rest, 1%Z, [], s0. split; [exact A|]. split; [reflexivity|]. right. left. split; [exact X|]. split; [left; intros ->; destruct Y; discriminate|]. now repeat split.
  - exists items, e, rest, 1%Z, [], s0. split; [exact A|]. split; [reflexivity|]. right. left. split; [exact X|]. split; [|now repeat split].
    destruct e; [right|left; discriminate|left; discriminate]. rewrite <- D by reflexivity. exact Z.
  - assert (SA : size_argument (option_map (fun t => (t ++ [0], N.of_nat (length t))) (keep 112 None items))).
    { intros str len Q. destruct (keep 112 None items) as [t|] eqn:K; [|discriminate]. injection Q as <- <-. exists t, []. split; [reflexivity|]. split; [reflexivity|].
      destruct (keep_none 112 items (fun x => V 112 x V112)) as [(Q & _)|(l & r & Q & _)]; [congruence|]. rewrite K in Q.
      pose proof (parsed_chars _ _ _ _ _ _ A (Forall_nil _) F) as FC. rewrite Forall_forall in FC. apply (FC (112, Some t)). rewrite Q. apply in_or_app. right. now left. }
    assert (e = Operands) by (destruct e; [reflexivity|discriminate|discriminate]). subst e.
    destruct (program_result E split verbose d (files source) signal _ (keep 100 None items) s0 G (I source) SA P) as (code & out & s' & H & _).
    exists items, Operands, rest, code, out, s'. split; [exact A|]. split; [exact H|]. right. right. split; [exact X|]. split; [reflexivity|].
    exists source, more, (keep 112 None items), (keep 100 None items). split; [rewrite <- D by reflexivity; exact Sk|].
    split; [apply keep_none; intros x; now apply V|]. split; [apply keep_none; intros x; now apply V|]. now split.
Qed.

Lemma no_program : forall E strchr split verbose d files signal s0, hmacsum_main E strchr split verbose d files signal [] s0 = Undef.
Proof. reflexivity. Qed.
