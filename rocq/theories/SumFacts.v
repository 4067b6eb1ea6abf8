(* Facts about the sum handle. *)
From Coq Require Import Arith NArith ZArith List Bool Lia.
From Verif Require Import Words Spec Machine MachineFacts Context ContextFacts ReprFacts DigestFacts Hash HashFacts HmacFacts
  Vocab HistoryFacts LibProofs LibTheorems ToolStrings ToolVocab ToolStringsFacts ToolProofs SumHandle SumVocab.
Import ListNotations.
Open Scope N_scope.

(* ------------------------------------------------------------------ cells *)

Notation cell_at s p := (nth_error (mem s) p).

Lemma get_cell : forall s p k o, cell_at s p = Some (mk_cell true k o) -> get_obj s p = Some o.
Proof. intros. unfold get_obj. now rewrite H. Qed.
Lemma cell_set_same : forall s p k o o', cell_at s p = Some (mk_cell true k o) -> cell_at (set_obj p o' s) p = Some (mk_cell true k o').
Proof.
  intros. unfold set_obj. rewrite H. cbn [mem set_mem live knd]. apply replace_same. apply nth_error_Some. congruence.
Qed.
Lemma cell_set_other : forall p o s q, p <> q -> cell_at (set_obj p o s) q = cell_at s q.
Proof. exact set_cell_other. Qed.
Lemma cell_frames : forall fs s q, cell_at (add_frames fs s) q = cell_at s q.
Proof. reflexivity. Qed.
Lemma cell_lt : forall s q c, cell_at s q = Some c -> (q < length (mem s))%nat.
Proof. intros. apply nth_error_Some. congruence. Qed.
Lemma cell_new : forall k o s, cell_at (new_cell k o s) (length (mem s)) = Some (mk_cell true k o).
Proof. intros. unfold new_cell. cbn [mem]. rewrite nth_error_app2, Nat.sub_diag by lia. reflexivity. Qed.
Lemma cell_new_old : forall k o s q, (q < length (mem s))%nat -> cell_at (new_cell k o s) q = cell_at s q.
Proof. intros. unfold new_cell. cbn [mem]. now rewrite nth_error_app1 by lia. Qed.
Lemma cell_kill_same : forall s p k o, cell_at s p = Some (mk_cell true k o) -> cell_at (kill p s) p = Some (mk_cell false k o).
Proof. intros. unfold kill. rewrite H. cbn [mem set_mem knd content]. apply replace_same. apply nth_error_Some. congruence. Qed.
Lemma cell_kill_other : forall s p q, p <> q -> cell_at (kill p s) q = cell_at s q.
Proof. intros. unfold kill. destruct (cell_at s p); [|reflexivity]. cbn [mem set_mem]. now apply replace_other. Qed.
Lemma kill_length : forall p s, length (mem (kill p s)) = length (mem s).
Proof. intros. unfold kill. destruct (cell_at s p); [|reflexivity]. cbn [mem set_mem]. apply replace_length. Qed.
Lemma kill_tries : forall p s, tries (kill p s) = tries s.
Proof. intros. unfold kill. now destruct (cell_at s p). Qed.
Lemma kill_errs : forall p s, errs (kill p s) = errs s.
Proof. intros. unfold kill. now destruct (cell_at s p). Qed.
Lemma mfree_ok : forall s p o, cell_at s p = Some (mk_cell true Heap o) -> mfree p s = Done tt (kill p s).
Proof. intros. unfold mfree, kill. rewrite H. reflexivity. Qed.
Lemma pop_ok : forall s p o, cell_at s p = Some (mk_cell true Stack o) -> pop_local p s = Done tt (kill p s).
Proof. intros. unfold pop_local, kill. rewrite H. reflexivity. Qed.

Lemma wf_set : forall s p o, wf_state s -> obj_ok o -> wf_state (set_obj p o s).
Proof.
  intros s p o W O q x H. destruct (Nat.eq_dec p q) as [->|Hn].
  - unfold get_obj, set_obj in H. destruct (cell_at s q) as [c|] eqn:C.
    + cbn [mem set_mem] in H. rewrite replace_same in H by (apply nth_error_Some; congruence). cbn in H.
      destruct (live c); [|discriminate]. injection H as <-. exact O.
    + rewrite C in H. discriminate.
  - rewrite get_set_other in H by assumption. exact (W _ _ H).
Qed.
Lemma wf_new : forall s k o, wf_state s -> obj_ok o -> wf_state (new_cell k o s).
Proof.
  intros s k o W O q x H. destruct (Nat.lt_ge_cases q (length (mem s))).
  - rewrite get_new_old in H by assumption. exact (W _ _ H).
  - destruct (Nat.eq_dec q (length (mem s))) as [->|].
    + rewrite get_new in H. injection H as <-. exact O.
    + unfold get_obj, new_cell in H. cbn [mem] in H.
      rewrite (proj2 (nth_error_None _ _)) in H; [discriminate|]. rewrite app_length. cbn [length]. lia.
Qed.
Lemma wf_kill : forall s p, wf_state s -> wf_state (kill p s).
Proof.
  intros s p W q x H. destruct (Nat.eq_dec p q) as [->|Hn].
  - unfold get_obj, kill in H. destruct (cell_at s q) as [c|] eqn:C.
    + cbn [mem set_mem] in H. rewrite replace_same in H by (apply nth_error_Some; congruence). cbn in H. discriminate.
    + rewrite C in H. discriminate.
  - unfold get_obj in *. rewrite cell_kill_other in H by assumption. exact (W _ _ H).
Qed.
Lemma wf_same_mem : forall s s', mem s' = mem s -> wf_state s -> wf_state s'.
Proof. intros s s' H W p o G. apply (W p o). unfold get_obj in *. now rewrite <- H. Qed.
Lemma junk_ok : forall E i n, Forall is_byte (junk_bytes E i n).
Proof.
  intros. unfold junk_bytes. apply Forall_forall. intros x Hx. apply in_map_iff in Hx. destruct Hx as (j & <- & _).
  unfold is_byte. apply N.mod_lt. lia.
Qed.
Lemma junk_length : forall E i n, length (junk_bytes E i n) = N.to_nat n.
Proof. intros. unfold junk_bytes. now rewrite map_length, seq_length. Qed.

Lemma slot_same : forall a x h, slots (set_slot a x h) a = x.
Proof. intros. cbn. now rewrite algid_eqb_refl. Qed.
Lemma algid_eqb_neq : forall a b, a <> b -> algid_eqb a b = false.
Proof. intros a b H. destruct (algid_eqb a b) eqn:Q; [|reflexivity]. apply algid_eqb_eq in Q. contradiction. Qed.
Lemma slot_other : forall a b x h, a <> b -> slots (set_slot a x h) b = slots h b.
Proof. intros. cbn. now rewrite algid_eqb_neq. Qed.
Lemma algid_dec : forall a b : algid, {a = b} + {a <> b}.
Proof. decide equality. Qed.
Lemma all_in : forall a, In a all_algs.
Proof. destruct a; cbn; tauto. Qed.
Lemma all_nodup : NoDup all_algs.
Proof. repeat constructor; cbn; intuition discriminate. Qed.

(* ----------------------------------------------------------------- update *)

(* the context of a selected digest has absorbed m *)
Definition absorbed (s : state) (h : handle) (m : list N) (a : algid) : Prop :=
  calculate (slots h a) = true ->
  exists p c, context (slots h a) = Some p /\ cell_at s p = Some (mk_cell true Heap (OCtx a c)) /\
              ctx_repr a (a_iv (alg_of a)) 0 c m.

(* cells other than the contexts of the selected digests *)
Definition no_ctx (h : handle) (l : list algid) (q : nat) : Prop :=
  forall a, In a l -> calculate (slots h a) = true -> context (slots h a) <> Some q.

Lemma absorbed_cell : forall s s' h m a, absorbed s h m a ->
  (forall p, calculate (slots h a) = true -> context (slots h a) = Some p -> cell_at s' p = cell_at s p) -> absorbed s' h m a.
Proof. intros s s' h m a A H C. destruct (A C) as (p & c & Hp & Hc & R). exists p, c. rewrite (H p C Hp). auto. Qed.

Lemma repr_obj_ok : forall a h0 n0 c m, ctx_repr a h0 n0 c m -> obj_ok (OCtx a c).
Proof. intros a h0 n0 c m R. exact (re_wf _ _ _ _ _ R). Qed.

Lemma update_slot_ok : forall E bp n e a h s m, wf_state s -> absorbed s h m a -> accessible s bp n -> n <= ssize_max E ->
  exists s', update_slot E bp n e a h s = Done (1%Z, h) s' /\ wf_state s' /\
    absorbed s' h (m ++ bytes_at s bp n) a /\
    (forall q, no_ctx h [a] q -> cell_at s' q = cell_at s q) /\
    length (mem s') = length (mem s) /\ tries s' = tries s /\ errs s' = errs s.
Proof.
  intros E bp n e a h s m W A Acc Hn. unfold update_slot. destruct (calculate (slots h a)) eqn:C.
  2:{ exists s. repeat split; try reflexivity; try assumption. intros C'. congruence. }
  destruct (A C) as (p & c & Hp & Hc & R). rewrite Hp.
  destruct (context_update_ok E a p bp n e s c W (get_cell _ _ _ _ Hc) Acc Hn) as (fs & _ & HU).
  erewrite bind_done by exact HU. cbn [Z.eqb]. change (1 =? 1)%Z with true. cbn iota.
  assert (R' : ctx_repr a (a_iv (alg_of a)) 0 (update_fn a c (bytes_at s bp n)) (m ++ bytes_at s bp n)).
  { apply update_repr; [exact R|]. now apply bytes_at_bytes. }
  eexists. split; [reflexivity|]. split; [|split; [|split; [|split; [|split]]]].
  - eapply wf_same_mem; [reflexivity|]. apply wf_set; [exact W|]. exact (repr_obj_ok _ _ _ _ _ R').
  - intros _. exists p, (update_fn a c (bytes_at s bp n)). split; [exact Hp|]. split; [|exact R'].
    rewrite cell_frames. eapply cell_set_same. exact Hc.
  - intros q Hq. rewrite cell_frames. apply cell_set_other. intros ->. apply (Hq a (or_introl eq_refl) C Hp).
  - cbn [add_frames mem]. apply set_obj_length.
  - cbn [add_frames tries]. apply set_obj_tries.
  - cbn [add_frames errs]. apply set_obj_errs.
Qed.

Lemma bytes_at_same : forall s s' bp n, cell_at s' (fst bp) = cell_at s (fst bp) -> bytes_at s' bp n = bytes_at s bp n.
Proof. intros s s' bp n H. unfold bytes_at, get_obj. now rewrite H. Qed.
Lemma accessible_same : forall s s' bp n, cell_at s' (fst bp) = cell_at s (fst bp) -> accessible s bp n -> accessible s' bp n.
Proof. intros s s' bp n H (l & Hl & Ll). exists l. split; [|exact Ll]. unfold get_obj in *. now rewrite H. Qed.

Lemma no_ctx_bytes : forall s h m l q k b, (forall a, In a l -> absorbed s h m a) ->
  cell_at s q = Some (mk_cell true k (OBytes b)) -> no_ctx h l q.
Proof.
  intros s h m l q k b A Hq a Ha C Hc. destruct (A a Ha C) as (p & c & Hp & Hcell & _). congruence.
Qed.
Lemma acc_cell : forall s bp n, accessible s bp n -> exists k b, cell_at s (fst bp) = Some (mk_cell true k (OBytes b)).
Proof.
  intros s bp n (l & Hl & _). unfold get_obj in Hl. destruct (cell_at s (fst bp)) as [[lv k o]|]; [|discriminate].
  cbn in Hl. destruct lv; [|discriminate]. injection Hl as ->. eauto.
Qed.
(* contexts of different digests are different cells *)
Lemma ctx_cells : forall s h m a b p q, a <> b -> absorbed s h m a -> absorbed s h m b -> calculate (slots h a) = true -> calculate (slots h b) = true ->
  context (slots h a) = Some p -> context (slots h b) = Some q -> p <> q.
Proof.
  intros s h m a b p q N A B Ca Cb Hp Hq ->.
  destruct (A Ca) as (p' & c & Hp' & Hc & _). destruct (B Cb) as (q' & d & Hq' & Hd & _).
  assert (p' = q' ) by congruence. subst. rewrite Hc in Hd. congruence.
Qed.

Lemma absorbed_other : forall s s' h m a b, a <> b -> absorbed s h m a -> absorbed s h m b ->
  (forall q, no_ctx h [a] q -> cell_at s' q = cell_at s q) -> absorbed s' h m b.
Proof.
  intros s s' h m a b N A B H Cb. destruct (B Cb) as (q & d & Hq & Hd & R). exists q, d. rewrite H; [auto|].
  intros x [<-|[]] Ca Hx. apply (ctx_cells s h m a b q q N A B Ca Cb Hx Hq). reflexivity.
Qed.

Lemma update_steps : forall E bp n e h m l s, NoDup l -> wf_state s -> (forall a, In a l -> absorbed s h m a) ->
  accessible s bp n -> n <= ssize_max E ->
  exists s', steps (update_slot E bp n e) l h s = Done (1%Z, h) s' /\ wf_state s' /\
    (forall a, In a l -> absorbed s' h (m ++ bytes_at s bp n) a) /\
    (forall q, no_ctx h l q -> cell_at s' q = cell_at s q) /\
    length (mem s') = length (mem s) /\ tries s' = tries s /\ errs s' = errs s.
Proof.
  induction l as [|a t IH]; intros s ND W A Acc Hn.
  { exists s. repeat split; try assumption. intros a []. }
  inversion ND as [|x y Na ND' Q]; subst. cbn [steps].
  destruct (update_slot_ok E bp n e a h s m W (A a (or_introl eq_refl)) Acc Hn) as (s1 & H1 & W1 & A1 & F1 & L1 & T1 & E1).
  erewrite bind_done by exact H1. cbn [fst snd]. change (1 =? 1)%Z with true. cbn iota.
  destruct (acc_cell _ _ _ Acc) as (k & b & Hb).
  assert (Fb : cell_at s1 (fst bp) = cell_at s (fst bp)).
  { apply F1. eapply (no_ctx_bytes s h m [a]); [|exact Hb]. intros x [<-|[]]. apply A. now left. }
  destruct (IH s1 ND' W1) as (s2 & H2 & W2 & A2 & F2 & L2 & T2 & E2).
  - intros b' Hb'. apply (absorbed_other s s1 h m a b'); [intros ->; contradiction|apply A; now left|apply A; now right|exact F1].
  - now apply (accessible_same s).
  - exact Hn.
  - exists s2. split; [exact H2|]. split; [exact W2|]. split; [|split; [|split; [congruence|split; congruence]]].
    + intros x [<-|Hx].
      * eapply absorbed_cell; [exact A1|]. intros p Ca Hp. apply F2.
        intros b' Hb' Cb' Hq. assert (Nx : a <> b') by (intros ->; contradiction).
        exact (ctx_cells s h m a b' p p Nx (A a (or_introl eq_refl)) (A b' (or_intror Hb')) Ca Cb' Hp Hq eq_refl).
      * rewrite <- (bytes_at_same s s1 bp n Fb). now apply A2.
    + intros q Hq. rewrite F2, F1; [reflexivity| |].
      * intros x [<-|[]]. apply Hq. now left.
      * intros x Hx. apply Hq. now right.
Qed.

(* --------------------------------------------------------------- finalize *)

Definition string_ok (s : state) (h : handle) (a : algid) : Prop :=
  forall q, hash_string (slots h a) = Some q -> exists l, heap_bytes s q l /\ length l = N.to_nat (2 * digest_size a + 1).
Definition is_string (h : handle) (l : list algid) (q : nat) : Prop :=
  exists a, In a l /\ calculate (slots h a) = true /\ hash_string (slots h a) = Some q.

Lemma small_sizes : forall E a, a_hs (alg_of a) = digest_size a /\ string_size a = 2 * digest_size a + 1 /\ digest_size a <= 64 /\ 129 <= ssize_max E.
Proof. intros E a. split; [now rewrite digest_size_eq|]. split; [now destruct a|]. split; [destruct a; cbn; lia|]. unfold ssize_max. destruct (plat64 E); lia. Qed.

(* the local arrays of the function *)
Definition arrays_ok (s : state) (hash : algid -> nat) : Prop :=
  forall b, exists J, cell_at s (hash b) = Some (mk_cell true Stack (OBytes J)) /\ length J = N.to_nat (digest_size b).

Lemma finalize_slot_ok : forall E e hash a h s m, wf_state s -> arrays_ok s hash -> absorbed s h m a -> string_ok s h a ->
  (calculate (slots h a) = true -> hash_string (slots h a) <> None) ->
  exists s', finalize_slot E e hash a h s = Done (1%Z, h) s' /\ wf_state s' /\ arrays_ok s' hash /\
    (forall q, calculate (slots h a) = true -> hash_string (slots h a) = Some q -> heap_bytes s' q (hex (lib_hash a m) ++ [0])) /\
    (forall p, calculate (slots h a) = true -> context (slots h a) = Some p -> heap_ctx s' a p) /\
    (forall q, q <> hash a -> no_ctx h [a] q -> ~ is_string h [a] q -> cell_at s' q = cell_at s q) /\
    length (mem s') = length (mem s) /\ tries s' = tries s /\ errs s' = errs s.
Proof.
  intros E e hash a h s1 m W1 AR A SO St. unfold finalize_slot. destruct (calculate (slots h a)) eqn:C.
  2:{ exists s1. repeat split; try reflexivity; try assumption; congruence. }
  destruct (A C) as (p & c & Hp & Cp & R). rewrite Hp.
  destruct (hash_string (slots h a)) as [q|] eqn:Hq; [|now contradiction (St eq_refl)].
  destruct (SO q Hq) as (l & Cq & Ll). unfold heap_bytes in Cq.
  destruct (small_sizes E a) as (Hhs & Hss & Hds & Hmax).
  destruct (AR a) as (J & Cd & LJ). set (d := hash a) in *.
  assert (Npd : p <> d) by (intros ->; congruence).
  assert (Nqd : q <> d) by (intros ->; congruence).
  assert (Npq : p <> q) by (intros ->; congruence).
  destruct (context_finalize_ok E a p (d, 0) (a_hs (alg_of a)) e s1 c J W1 (get_cell _ _ _ _ Cp) (get_cell _ _ _ _ Cd)) as (f & _ & HF);
    [cbn [snd]; lia|lia|lia|].
  erewrite bind_done by exact HF. change (1 =? 1)%Z with true. cbn iota. cbn [fst snd].
  assert (Dl : digest_fn a c = lib_hash a m) by (rewrite (digest_repr _ _ _ _ _ R); apply code_hash_lib).
  rewrite Dl. rewrite put_all by (rewrite LJ, lib_hash_length; lia).
  set (s2 := add_frames [f] (set_obj p (OCtx a (zero_ctx (alg_of a))) (set_obj d (OBytes (lib_hash a m)) s1))).
  assert (W2 : wf_state s2).
  { eapply wf_same_mem; [reflexivity|]. apply wf_set; [apply wf_set; [exact W1|apply lib_hash_bytes]|].
    exact (repr_obj_ok _ _ _ _ _ (zero_repr a)). }
  assert (Dd : cell_at s2 d = Some (mk_cell true Stack (OBytes (lib_hash a m)))).
  { unfold s2. rewrite cell_frames, cell_set_other by assumption. eapply cell_set_same. exact Cd. }
  assert (Dp : cell_at s2 p = Some (mk_cell true Heap (OCtx a (zero_ctx (alg_of a))))).
  { unfold s2. rewrite cell_frames. eapply cell_set_same. rewrite cell_set_other by congruence. exact Cp. }
  assert (Dq : cell_at s2 q = Some (mk_cell true Heap (OBytes l))).
  { unfold s2. rewrite cell_frames, !cell_set_other by congruence. exact Cq. }
  destruct (copy_succeeds E (d, 0) (a_hs (alg_of a)) (q, 0) (string_size a) e s2) as (l' & Hl' & HC).
  { lia. } { lia. } { now apply good_wf. }
  { exists (lib_hash a m). split; [exact (get_cell _ _ _ _ Dd)|]. cbn [snd]. rewrite lib_hash_length. lia. }
  { exists l. split; [exact (get_cell _ _ _ _ Dq)|]. cbn [snd]. lia. }
  { cbn [fst]. congruence. }
  rewrite bind_assoc. erewrite bind_done by exact HC. change (1 =? 1)%Z with true. cbn iota. rewrite bind_ret.
  cbn [fst snd] in *. rewrite (get_cell _ _ _ _ Dq) in Hl'. injection Hl' as <-.
  assert (Bd : bytes_at s2 (d, 0) (a_hs (alg_of a)) = lib_hash a m).
  { unfold bytes_at. cbn [fst snd]. rewrite (get_cell _ _ _ _ Dd). cbn [N.to_nat skipn]. apply firstn_all2. rewrite lib_hash_length. lia. }
  rewrite Bd. rewrite put_all by (rewrite app_length, hex_length, lib_hash_length; cbn [length]; lia).
  set (s3 := set_obj q (OBytes (hex (lib_hash a m) ++ [0])) s2).
  assert (F3 : forall r, r <> d -> r <> p -> r <> q -> cell_at s3 r = cell_at s1 r).
  { intros r H1 H2 H3. unfold s3, s2. now rewrite cell_set_other, cell_frames, !cell_set_other by congruence. }
  eexists. split; [reflexivity|]. split; [|split; [|split; [|split; [|split; [|split; [|split]]]]]].
  - apply wf_set; [exact W2|]. cbn [obj_ok]. apply Forall_app. split; [|repeat constructor].
    eapply Forall_impl; [|apply hex_is_string, lib_hash_bytes]. unfold is_byte. intros; cbv beta in *; lia.
  - intros b. destruct (AR b) as (Jb & Cb & Lb). destruct (Nat.eq_dec (hash b) d) as [Q|Q].
    + rewrite Q in Cb |- *. exists (lib_hash a m). unfold s3. rewrite cell_set_other by congruence. split; [exact Dd|].
      rewrite lib_hash_length, <- Lb. assert (Jb = J) by congruence. subst. rewrite LJ. reflexivity.
    + exists Jb. split; [|exact Lb]. rewrite F3; [exact Cb|exact Q|intros X; rewrite X in Cb; congruence|intros X; rewrite X in Cb; congruence].
  - intros q' _ Hq'. assert (q' = q) by congruence. subst q'. unfold heap_bytes. eapply cell_set_same. exact Dq.
  - intros p' _ Hp'. assert (p' = p) by congruence. subst p'. eexists. unfold s3. rewrite cell_set_other by congruence. exact Dp.
  - intros r Hr Nc Ns. apply F3; [exact Hr| |].
    + intros ->. exact (Nc a (or_introl eq_refl) C Hp).
    + intros ->. apply Ns. exists a. repeat split; [now left|exact C|exact Hq].
  - unfold s3, s2. rewrite set_obj_length. cbn [add_frames mem]. now rewrite !set_obj_length.
  - unfold s3, s2. rewrite set_obj_tries. cbn [add_frames tries]. now rewrite !set_obj_tries.
  - unfold s3, s2. rewrite set_obj_errs. cbn [add_frames errs]. now rewrite !set_obj_errs.
Qed.

Lemma digest_size_inj : forall a b, digest_size a = digest_size b -> a = b.
Proof. destruct a, b; cbn; intros; reflexivity || discriminate. Qed.
Lemma string_cells : forall s h a b q, string_ok s h a -> string_ok s h b -> a <> b ->
  hash_string (slots h a) = Some q -> hash_string (slots h b) <> Some q.
Proof.
  intros s h a b q A B N Ha Hb. destruct (A q Ha) as (l & Hl & Ll). destruct (B q Hb) as (l' & Hl' & Ll').
  unfold heap_bytes in *. assert (l = l') by congruence. subst. apply N, digest_size_inj. lia.
Qed.
Lemma string_no_ctx : forall s h m l b q, (forall a, In a l -> absorbed s h m a) -> string_ok s h b -> hash_string (slots h b) = Some q -> no_ctx h l q.
Proof. intros s h m l b q A B Hb. destruct (B q Hb) as (x & Hx & _). exact (no_ctx_bytes _ _ _ _ _ _ _ A Hx). Qed.
Lemma ctx_no_string : forall s h m l a p, (forall a, In a l -> string_ok s h a) -> absorbed s h m a -> calculate (slots h a) = true ->
  context (slots h a) = Some p -> ~ is_string h l p.
Proof.
  intros s h m l a p SO A C Hp (b & Hb & _ & Hq). destruct (SO b Hb p Hq) as (x & Hx & _). destruct (A C) as (p' & c & Hp' & Hc & _).
  unfold heap_bytes in Hx. congruence.
Qed.

Lemma finalize_steps : forall E e hash h m l s, NoDup l -> wf_state s -> arrays_ok s hash -> (forall a, In a l -> absorbed s h m a) ->
  (forall a, In a l -> string_ok s h a) -> (forall a, In a l -> calculate (slots h a) = true -> hash_string (slots h a) <> None) ->
  exists s', steps (finalize_slot E e hash) l h s = Done (1%Z, h) s' /\ wf_state s' /\ arrays_ok s' hash /\
    (forall a q, In a l -> calculate (slots h a) = true -> hash_string (slots h a) = Some q -> heap_bytes s' q (hex (lib_hash a m) ++ [0])) /\
    (forall a p, In a l -> calculate (slots h a) = true -> context (slots h a) = Some p -> heap_ctx s' a p) /\
    (forall q, (forall a, q <> hash a) -> no_ctx h l q -> ~ is_string h l q -> cell_at s' q = cell_at s q) /\
    length (mem s') = length (mem s) /\ tries s' = tries s /\ errs s' = errs s.
Proof.
  induction l as [|a t IH]; intros s ND W AR A SO St.
  { exists s. repeat split; try assumption; try reflexivity; try (intros; contradiction). }
  inversion ND as [|x y Na ND' Q]; subst. cbn [steps].
  destruct (finalize_slot_ok E e hash a h s m W AR (A a (or_introl eq_refl)) (SO a (or_introl eq_refl)) (St a (or_introl eq_refl)))
    as (s1 & H1 & W1 & AR1 & D1 & C1 & F1 & L1 & T1 & E1).
  erewrite bind_done by exact H1. cbn [fst snd]. change (1 =? 1)%Z with true. cbn iota.
  (* the cells of the other digests are as they were *)
  assert (Hs : forall b q l, heap_bytes s q l -> q <> hash b) by (intros b q l0 X ->; destruct (AR b) as (J & CJ & _); unfold heap_bytes in X; congruence).
  assert (Hc : forall b q k c x, cell_at s q = Some (mk_cell k Heap (OCtx c x)) -> q <> hash b) by (intros b q k c x X ->; destruct (AR b) as (J & CJ & _); congruence).
  assert (Fs : forall b q, In b t -> hash_string (slots h b) = Some q -> cell_at s1 q = cell_at s q).
  { intros b q Hb Hq. assert (Nab : a <> b) by (intros ->; contradiction).
    destruct (SO b (or_intror Hb) q Hq) as (x & Hx & _).
    apply F1; [exact (Hs a _ _ Hx)| |].
    - apply (string_no_ctx s h m [a] b q); [intros z [<-|[]]; apply A; now left|apply SO; now right|exact Hq].
    - intros (z & [<-|[]] & _ & Hz). exact (string_cells s h a b q (SO a (or_introl eq_refl)) (SO b (or_intror Hb)) Nab Hz Hq). }
  assert (Fc : forall b p, In b t -> calculate (slots h b) = true -> context (slots h b) = Some p -> cell_at s1 p = cell_at s p).
  { intros b p Hb Cb Hp. assert (Nab : a <> b) by (intros ->; contradiction).
    destruct (A b (or_intror Hb) Cb) as (p' & c & Hp' & Hc' & _). assert (p' = p) by congruence. subst p'.
    apply F1; [exact (Hc a _ _ _ _ Hc')| |].
    - intros z [<-|[]] Cz Hz. exact (ctx_cells s h m a b p p Nab (A a (or_introl eq_refl)) (A b (or_intror Hb)) Cz Cb Hz Hp eq_refl).
    - apply (ctx_no_string s h m [a] b p); [intros z [<-|[]]; apply SO; now left|apply A; now right|exact Cb|exact Hp]. }
  destruct (IH s1 ND' W1 AR1) as (s2 & H2 & W2 & AR2 & D2 & C2 & F2 & L2 & T2 & E2).
  - intros b Hb. apply (absorbed_cell s s1); [apply A; now right|]. intros p Cb Hp. now apply (Fc b).
  - intros b Hb q Hq. unfold heap_bytes. rewrite (Fs b q Hb Hq). apply SO; [now right|exact Hq].
  - intros b Hb. apply St. now right.
  - (* what step a did is still so after the others *)
    assert (Ks : forall q, calculate (slots h a) = true -> hash_string (slots h a) = Some q -> cell_at s2 q = cell_at s1 q).
    { intros q Ca Hq. destruct (SO a (or_introl eq_refl) q Hq) as (x & Hx & _). apply F2; [intros b; exact (Hs b _ _ Hx)| |].
      - intros b Hb Cb Hp. destruct (A b (or_intror Hb) Cb) as (p' & c & Hp' & Hc' & _). unfold heap_bytes in Hx. congruence.
      - intros (b & Hb & _ & Hqb). assert (Nab : a <> b) by (intros ->; contradiction).
        exact (string_cells s h a b q (SO a (or_introl eq_refl)) (SO b (or_intror Hb)) Nab Hq Hqb). }
    assert (Kc : forall p, calculate (slots h a) = true -> context (slots h a) = Some p -> cell_at s2 p = cell_at s1 p).
    { intros p Ca Hp. destruct (A a (or_introl eq_refl) Ca) as (p' & c & Hp' & Hc' & _). assert (p' = p) by congruence. subst p'.
      apply F2; [intros b; exact (Hc b _ _ _ _ Hc')| |].
      - intros b Hb Cb Hpb. assert (Nab : a <> b) by (intros ->; contradiction).
        exact (ctx_cells s h m a b p p Nab (A a (or_introl eq_refl)) (A b (or_intror Hb)) Ca Cb Hp Hpb eq_refl).
      - intros (b & Hb & _ & Hqb). destruct (SO b (or_intror Hb) p Hqb) as (x & Hx & _). unfold heap_bytes in Hx. congruence. }
    exists s2. split; [exact H2|]. split; [exact W2|]. split; [exact AR2|]. split; [|split; [|split; [|split; [lia|split; congruence]]]].
    + intros b q [<-|Hb] Cb Hq; [|now apply (D2 b)]. unfold heap_bytes. rewrite (Ks q Cb Hq). now apply D1.
    + intros b p [<-|Hb] Cb Hp; [|now apply (C2 b)]. unfold heap_ctx. rewrite (Kc p Cb Hp). now apply C1.
    + intros q Hq Nc Ns. rewrite F2, F1; try reflexivity; try apply Hq.
      * intros x [<-|[]]. apply Nc. now left.
      * intros (x & [<-|[]] & Hx). apply Ns. exists a. split; [now left|exact Hx].
      * intros x Hx. apply Nc. now right.
      * intros (x & Hx & Hx'). apply Ns. exists x. split; [now right|exact Hx'].
Qed.

(* the five arrays: their places, the state with them and the state without them again *)
Definition hashes_from (d : nat) (a : algid) : nat :=
  match a with MD5 => d | SHA1 => S d | SHA224 => S (S d) | SHA256 => S (S (S d)) | SHA512 => S (S (S (S d))) end.
Definition push_hash (E : env) (a : algid) (s : state) : state :=
  new_cell Stack (OBytes (junk_bytes E (length (mem s)) (a_hs (alg_of a)))) s.
Definition push_hashes (E : env) (s : state) : state := fold_left (fun s a => push_hash E a s) all_algs s.
Definition pop_hashes (d : nat) (s : state) : state := fold_left (fun s a => kill (hashes_from d a) s) all_algs s.

Lemma hash_array_run : forall E a s, hash_array E a s = Done (length (mem s)) (push_hash E a s).
Proof. reflexivity. Qed.
Lemma push_length : forall E a s, length (mem (push_hash E a s)) = S (length (mem s)).
Proof. intros. unfold push_hash, new_cell. cbn [mem]. rewrite app_length. cbn [length]. lia. Qed.
Lemma push_old : forall E a s q, (q < length (mem s))%nat -> cell_at (push_hash E a s) q = cell_at s q.
Proof. intros. now apply cell_new_old. Qed.
Lemma push_new : forall E a s, exists J, cell_at (push_hash E a s) (length (mem s)) = Some (mk_cell true Stack (OBytes J)) /\ length J = N.to_nat (digest_size a).
Proof. intros. eexists. split; [apply cell_new|]. now rewrite junk_length, (proj1 (small_sizes E a)). Qed.

Lemma push_hashes_length : forall E s, length (mem (push_hashes E s)) = (length (mem s) + 5)%nat.
Proof. intros. unfold push_hashes. cbn [fold_left all_algs]. rewrite !push_length. lia. Qed.
Lemma push_hashes_old : forall E s q, (q < length (mem s))%nat -> cell_at (push_hashes E s) q = cell_at s q.
Proof. intros. unfold push_hashes. cbn [fold_left all_algs]. rewrite !push_old; [reflexivity|rewrite ?push_length; lia..]. Qed.
Lemma push_hashes_arrays : forall E s, arrays_ok (push_hashes E s) (hashes_from (length (mem s))).
Proof.
  intros E s a. unfold push_hashes. cbn [fold_left all_algs].
  destruct a; cbn [hashes_from]; rewrite <- ?(push_length E MD5 s), <- ?(push_length E SHA1 (push_hash E MD5 s)), <- ?(push_length E SHA224 (push_hash E SHA1 (push_hash E MD5 s))),
    <- ?(push_length E SHA256 (push_hash E SHA224 (push_hash E SHA1 (push_hash E MD5 s)))); rewrite ?push_old by (rewrite ?push_length; lia); apply push_new.
Qed.
Lemma push_hashes_wf : forall E s, wf_state s -> wf_state (push_hashes E s).
Proof. intros E s W. unfold push_hashes. cbn [fold_left all_algs]. repeat (apply wf_new; [|apply junk_ok]). exact W. Qed.
Lemma push_hashes_tries : forall E s, tries (push_hashes E s) = tries s.
Proof. reflexivity. Qed.
Lemma push_hashes_errs : forall E s, errs (push_hashes E s) = errs s.
Proof. reflexivity. Qed.

Lemma hashes_from_inj : forall d a b, hashes_from d a = hashes_from d b -> a = b.
Proof. intros d [] [] H; cbn [hashes_from] in H; try reflexivity; exfalso; lia. Qed.
Lemma hashes_from_ge : forall d a, (d <= hashes_from d a < d + 5)%nat.
Proof. intros d []; cbn [hashes_from]; lia. Qed.

Lemma pop_hashes_other : forall d s q, (forall a, q <> hashes_from d a) -> cell_at (pop_hashes d s) q = cell_at s q.
Proof. intros d s q H. unfold pop_hashes. cbn [fold_left all_algs]. rewrite !cell_kill_other; [reflexivity|..]; intros X; symmetry in X; revert X; apply H. Qed.
Lemma pop_hashes_length : forall d s, length (mem (pop_hashes d s)) = length (mem s).
Proof. intros. unfold pop_hashes. cbn [fold_left all_algs]. now rewrite !kill_length. Qed.
Lemma pop_hashes_tries : forall d s, tries (pop_hashes d s) = tries s.
Proof. intros. unfold pop_hashes. cbn [fold_left all_algs]. now rewrite !kill_tries. Qed.
Lemma pop_hashes_errs : forall d s, errs (pop_hashes d s) = errs s.
Proof. intros. unfold pop_hashes. cbn [fold_left all_algs]. now rewrite !kill_errs. Qed.
Lemma pop_hashes_wf : forall d s, wf_state s -> wf_state (pop_hashes d s).
Proof. intros d s W. unfold pop_hashes. cbn [fold_left all_algs]. now repeat apply wf_kill. Qed.
Lemma kill_dead : forall s p q c, cell_at (kill p s) q = Some c -> live c = true -> p <> q /\ cell_at s q = Some c.
Proof.
  intros s p q c H L. destruct (Nat.eq_dec p q) as [->|N]; [|rewrite cell_kill_other in H by exact N; now split].
  exfalso. unfold kill in H. destruct (cell_at s q) as [x|] eqn:X; [|congruence]. cbn [mem set_mem] in H.
  rewrite replace_same in H by (apply nth_error_Some; congruence). injection H as <-. discriminate.
Qed.
Lemma pop_hashes_dead : forall d s a, ~ live_at (pop_hashes d s) (hashes_from d a).
Proof.
  intros d s a (c & H & L). unfold pop_hashes in H. cbn [fold_left all_algs] in H.
  repeat (apply kill_dead in H; [|exact L]; destruct H as (? & H)). destruct a; congruence.
Qed.

Definition stack_cell (s : state) (p : nat) : Prop := exists o, cell_at s p = Some (mk_cell true Stack o).
Lemma stack_kill : forall s p q, p <> q -> stack_cell s q -> stack_cell (kill p s) q.
Proof. intros s p q N (o & H). exists o. now rewrite cell_kill_other. Qed.

Lemma with_hashes_run : forall E body s r s', body (hashes_from (length (mem s))) (push_hashes E s) = Done r s' ->
  (forall a, stack_cell s' (hashes_from (length (mem s)) a)) ->
  with_hashes E body s = Done r (pop_hashes (length (mem s)) s').
Proof.
  intros E body s r s' H K. unfold with_hashes. do 5 (erewrite bind_done by apply hash_array_run). rewrite !push_length.
  erewrite bind_done by exact H. set (d := length (mem s)) in *.
  assert (N : forall a b, a <> b -> hashes_from d a <> hashes_from d b) by (intros a b X Y; apply X; exact (hashes_from_inj d a b Y)).
  unfold pop_hashes. cbn [fold_left all_algs].
  assert (P : forall a x (k : M Z), stack_cell x (hashes_from d a) -> (pop_local (hashes_from d a) ;;; k) x = k (kill (hashes_from d a) x)).
  { intros a x k (o & X). erewrite bind_done by (eapply pop_ok; exact X). reflexivity. }
  change d with (hashes_from d MD5) at 1. rewrite P by apply K.
  change (S d) with (hashes_from d SHA1) at 1. rewrite P by (apply stack_kill; [now apply N|apply K]).
  change (S (S d)) with (hashes_from d SHA224) at 1. rewrite P by (do 2 (apply stack_kill; [now apply N|]); apply K).
  change (S (S (S d))) with (hashes_from d SHA256) at 1. rewrite P by (do 3 (apply stack_kill; [now apply N|]); apply K).
  change (S (S (S (S d)))) with (hashes_from d SHA512) at 1. rewrite P by (do 4 (apply stack_kill; [now apply N|]); apply K).
  reflexivity.
Qed.

Lemma finalize_ok : forall E e h m s, wf_state s -> (forall a, In a all_algs -> absorbed s h m a) ->
  (forall a, In a all_algs -> string_ok s h a) -> (forall a, In a all_algs -> calculate (slots h a) = true -> hash_string (slots h a) <> None) ->
  exists s', sum_handle_finalize_integrity_hash E h e s = Done 1%Z s' /\ wf_state s' /\
    (forall a q, In a all_algs -> calculate (slots h a) = true -> hash_string (slots h a) = Some q -> heap_bytes s' q (hex (lib_hash a m) ++ [0])) /\
    (forall a p, In a all_algs -> calculate (slots h a) = true -> context (slots h a) = Some p -> heap_ctx s' a p) /\
    (forall q, (q < length (mem s))%nat -> no_ctx h all_algs q -> ~ is_string h all_algs q -> cell_at s' q = cell_at s q) /\
    (length (mem s) <= length (mem s'))%nat /\
    (forall q, (length (mem s) <= q)%nat -> ~ live_at s' q) /\
    tries s' = tries s /\ errs s' = errs s.
Proof.
  intros E e h m s W A SO St. set (d := length (mem s)). set (s0 := push_hashes E s).
  assert (Old : forall q c, cell_at s q = Some c -> cell_at s0 q = Some c).
  { intros q c H. unfold s0. rewrite push_hashes_old; [exact H|exact (cell_lt _ _ _ H)]. }
  assert (Far : forall q c a, cell_at s q = Some c -> q <> hashes_from d a).
  { intros q c a H ->. apply cell_lt in H. pose proof (hashes_from_ge d a). unfold d in *. lia. }
  assert (A0 : forall a, In a all_algs -> absorbed s0 h m a).
  { intros a Ha C. destruct (A a Ha C) as (p & c & Hp & Hc & R). exists p, c. auto. }
  assert (SO0 : forall a, In a all_algs -> string_ok s0 h a).
  { intros a Ha q Hq. destruct (SO a Ha q Hq) as (l & Hl & Ll). exists l. split; [|exact Ll]. now apply Old. }
  destruct (finalize_steps E e (hashes_from d) h m all_algs s0 all_nodup (push_hashes_wf _ _ W) (push_hashes_arrays E s) A0 SO0 St)
    as (s1 & H1 & W1 & AR1 & D1 & C1 & F1 & L1 & T1 & E1).
  exists (pop_hashes d s1). unfold sum_handle_finalize_integrity_hash. split.
  { apply with_hashes_run.
    - fold d s0. erewrite bind_done by exact H1. reflexivity.
    - intros a. destruct (AR1 a) as (J & X & _). now exists (OBytes J). }
  split; [now apply pop_hashes_wf|]. split; [|split; [|split; [|split; [|split; [|split]]]]].
  - intros a q Ha C Hq. destruct (SO a Ha q Hq) as (l & Hl & _). unfold heap_bytes. rewrite pop_hashes_other by (intros b; exact (Far _ _ b Hl)). now apply (D1 a).
  - intros a p Ha C Hp. destruct (A a Ha C) as (p' & c & Hp' & Hc & _). assert (p' = p) by congruence. subst p'.
    destruct (C1 a p Ha C Hp) as (c' & Hc'). exists c'. rewrite pop_hashes_other by (intros b; exact (Far _ _ b Hc)). exact Hc'.
  - intros q Hq Nc Ns. assert (Nq : forall a, q <> hashes_from d a) by (intros a ->; pose proof (hashes_from_ge d a); unfold d in *; lia).
    rewrite pop_hashes_other by exact Nq. rewrite F1 by assumption. now apply push_hashes_old.
  - rewrite pop_hashes_length, L1. unfold s0. rewrite push_hashes_length. lia.
  - intros q Hq Lq. pose proof Lq as (c & Hc & _). apply cell_lt in Hc. rewrite pop_hashes_length, L1 in Hc. unfold s0 in Hc. rewrite push_hashes_length in Hc. fold d in Hc, Hq.
    assert (X : exists a, q = hashes_from d a).
    { assert (q = d \/ q = S d \/ q = S (S d) \/ q = S (S (S d)) \/ q = S (S (S (S d)))) as [X|[X|[X|[X|X]]]] by lia; rewrite X;
        [now exists MD5|now exists SHA1|now exists SHA224|now exists SHA256|now exists SHA512]. }
    destruct X as (a & ->). now apply pop_hashes_dead in Lq.
  - rewrite pop_hashes_tries, T1. reflexivity.
  - rewrite pop_hashes_errs, E1. reflexivity.
Qed.

(* ------------------------------------------------------------- initialize *)

Lemma handle_ok_unchanged : forall s s' h, unchanged s s' -> handle_ok s h -> handle_ok s' h.
Proof.
  intros s s' h U (Hs & Hi & Ha). split; [now apply U|]. split; [now apply U|]. intros a. destruct (Ha a) as (A & B & C).
  split; [|split; [|exact C]].
  - intros p Hp. destruct (A p Hp) as (c & Hc). exists c. now apply U.
  - intros q Hq. destruct (B q Hq) as (l & Hl & Ll). exists l. split; [now apply U|exact Ll].
Qed.
Lemma unchanged_refl : forall s, unchanged s s.
Proof. intros s p c H. exact H. Qed.
Lemma unchanged_trans : forall s s1 s2, unchanged s s1 -> unchanged s1 s2 -> unchanged s s2.
Proof. intros s s1 s2 A B p c H. apply B, A, H. Qed.
Lemma unchanged_new : forall k o s, unchanged s (tick (new_cell k o s)).
Proof. intros k o s p c H. cbn [tick mem]. rewrite cell_new_old; [exact H|now apply (cell_lt _ _ _ H)]. Qed.

Record rest_same (h h' : handle) : Prop := {
  rs_sel : same_selection h h';
  rs_size : process_buffer_size h' = process_buffer_size h;
  rs_abort : h_abort h' = h_abort h;
}.
Lemma rest_refl : forall h, rest_same h h.
Proof. intros. constructor; [repeat split|reflexivity|reflexivity]. Qed.
Lemma rest_trans : forall h h1 h2, rest_same h h1 -> rest_same h1 h2 -> rest_same h h2.
Proof.
  intros h h1 h2 [(A1 & A2 & A3) B C] [(A1' & A2' & A3') B' C']. constructor; [|congruence|congruence].
  split; [congruence|]. split; [congruence|]. intros a. destruct (A3 a), (A3' a). split; congruence.
Qed.
Lemma rest_set : forall h a p, rest_same h (set_slot a (mk_slot (calculate (slots h a)) p (hash_string (slots h a))) h).
Proof.
  intros h a p. constructor; [|reflexivity|reflexivity]. split; [reflexivity|]. split; [reflexivity|]. intros b.
  destruct (algid_dec a b) as [<-|N]; [rewrite slot_same; split; reflexivity|rewrite slot_other by exact N; split; reflexivity].
Qed.

Lemma set_ctx_ok : forall s h a p, handle_ok s h -> (forall q, p = Some q -> heap_ctx s a q) ->
  handle_ok s (set_slot a (mk_slot (calculate (slots h a)) p (hash_string (slots h a))) h).
Proof.
  intros s h a p (Hs & Hi & Ha) Hp. split; [exact Hs|]. split; [exact Hi|]. intros b.
  destruct (algid_dec a b) as [<-|N]; [rewrite slot_same; cbn [context hash_string calculate]|rewrite slot_other by exact N; apply Ha].
  destruct (Ha a) as (_ & B & C). split; [exact Hp|]. split; [exact B|exact C].
Qed.

Lemma errors_added_one : forall (e : bool) k s s', errs s' = (if e then errs s ++ [k] else errs s) -> errors_added e s s'.
Proof. intros e k s s' H. unfold errors_added. destruct e; [exists k, (@nil err); exact H|exact H]. Qed.
Lemma errors_added_trans : forall e s s1 s2, errors_added e s s1 -> errors_added e s1 s2 -> errors_added e s s2.
Proof.
  intros e s s1 s2 A B. unfold errors_added in *. destruct e; [|congruence].
  destruct A as (k & ks & A). destruct B as (k' & ks' & B). rewrite B, A, <- app_assoc. cbn [app]. eauto.
Qed.
Lemma errors_added_same : forall e s s1 s2, errs s1 = errs s -> errors_added e s1 s2 -> errors_added e s s2.
Proof. intros e s s1 s2 A B. unfold errors_added in *. now rewrite <- A. Qed.
Lemma errors_added_same' : forall e s s1 s2, errs s2 = errs s1 -> errors_added e s s1 -> errors_added e s s2.
Proof. intros e s s1 s2 A B. unfold errors_added in *. now rewrite A. Qed.

Definition init_ok (E : env) (e : bool) (l : list algid) (h : handle) (s : state) (r : Z) (h' : handle) (s' : state) : Prop :=
  wf_state s' /\ handle_ok s' h' /\ rest_same h h' /\ unchanged s s' /\ (tries s <= tries s')%nat /\
  (length (mem s) <= length (mem s'))%nat /\
  (forall a, ~ In a l -> slots h' a = slots h a) /\
  (forall a p, context (slots h a) = Some p -> context (slots h' a) = Some p) /\
  (forall a p, context (slots h' a) = Some p -> context (slots h a) = Some p \/ (length (mem s) <= p)%nat) /\
  (forall p, (length (mem s) <= p < length (mem s'))%nat -> exists a, context (slots h' a) = Some p) /\
  ((r = 1%Z /\ errs s' = errs s /\ (forall a, In a l -> absorbed s' h' [] a) /\
    (forall a, In a l -> calculate (slots h a) = true -> context (slots h a) = None)) \/
   (r = (-1)%Z /\ errors_added e s s' /\
    ((exists a, In a l /\ calculate (slots h a) = true /\ context (slots h a) <> None) \/ some_alloc_failed E s s'))).

Lemma init_ok_none : forall E e l h s, wf_state s -> handle_ok s h -> (forall a, In a l -> calculate (slots h a) = false) ->
  init_ok E e l h s 1%Z h s.
Proof.
  intros E e l h s W H N. unfold init_ok. split; [exact W|]. split; [exact H|]. split; [apply rest_refl|]. split; [apply unchanged_refl|].
  split; [lia|]. split; [lia|]. split; [reflexivity|]. split; [auto|]. split; [auto|]. split; [intros; lia|].
  left. split; [reflexivity|]. split; [reflexivity|]. split; intros a Ha; rewrite ?(N a Ha); [|discriminate].
  intros C. rewrite (N a Ha) in C. discriminate.
Qed.

Lemma initialize_slot_ok : forall E e a h s, wf_state s -> handle_ok s h ->
  exists r h' s', initialize_slot E e a h s = Done (r, h') s' /\ init_ok E e [a] h s r h' s'.
Proof.
  intros E e a h s W H. unfold initialize_slot. destruct (calculate (slots h a)) eqn:C.
  2:{ exists 1%Z, h, s. split; [reflexivity|]. apply init_ok_none; try assumption. intros b [<-|[]]. exact C. }
  rewrite <- C. destruct (context (slots h a)) as [p|] eqn:P.
  - (* already set *)
    cbn [context_initialize]. rewrite bind_assoc. unfold bind at 1. rewrite fail_eq. rewrite bind_ret. cbn [fst snd].
    change (-1 =? 1)%Z with false. cbn iota. unfold bind, error_set, ret.
    eexists _, _, _. split; [reflexivity|]. set (h' := set_slot _ _ _).
    assert (Hctx : forall b, context (slots h' b) = context (slots h b)).
    { intros b. unfold h'. destruct (algid_dec a b) as [<-|N]; [rewrite slot_same; cbn; congruence|now rewrite slot_other]. }
    unfold init_ok. split; [exact W|]. split; [|split; [|split; [intros ? ? Hu; exact Hu|split; [cbn; lia|split; [cbn; lia|split; [|split; [|split; [|split]]]]]]]].
    + apply (set_ctx_ok s h a (Some p) H). intros q [= <-]. now apply (proj1 (proj2 (proj2 H) a)).
    + apply rest_set.
    + intros b Hb. unfold h'. apply slot_other. intros ->. apply Hb. now left.
    + intros b q. rewrite Hctx. auto.
    + intros b q. rewrite Hctx. auto.
    + cbn [mem add_err]. intros q Hq. lia.
    + right. split; [reflexivity|]. split; [|left; exists a; repeat split; [now left|exact C|congruence]].
      unfold errors_added. cbn [errs add_err]. destruct e; [|reflexivity]. rewrite <- app_assoc. cbn [app]. eauto.
  - unfold bind at 1. rewrite initialize_eq. destruct (alloc_ok E (tries s)) eqn:Al; cbn [fst snd].
    + change (1 =? 1)%Z with true. cbn iota. unfold ret.
      eexists _, _, _. split; [reflexivity|]. set (h' := set_slot _ _ _). set (s' := tick (new_cell Heap (OCtx a (init_ctx a)) s)).
      assert (U : unchanged s s') by apply unchanged_new.
      assert (Cn : cell_at s' (length (mem s)) = Some (mk_cell true Heap (OCtx a (init_ctx a)))) by apply cell_new.
      unfold init_ok. split; [|split; [|split; [|split; [exact U|split; [cbn; lia|split; [|split; [|split; [|split; [|split]]]]]]]]].
      * eapply wf_same_mem; [reflexivity|]. apply wf_new; [exact W|]. exact (repr_obj_ok _ _ _ _ _ (init_repr a)).
      * apply (set_ctx_ok s' h a (Some (length (mem s)))); [now apply (handle_ok_unchanged s)|]. intros q [= <-]. eexists. exact Cn.
      * apply rest_set.
      * unfold s'. cbn [tick new_cell mem]. rewrite app_length. lia.
      * intros b Hb. unfold h'. apply slot_other. intros ->. apply Hb. now left.
      * intros b q Hq. unfold h'. destruct (algid_dec a b) as [<-|N]; [congruence|]. now rewrite slot_other.
      * intros b q. unfold h'. destruct (algid_dec a b) as [<-|N]; [rewrite slot_same; cbn [context]; intros [= <-]; right; lia|rewrite slot_other by exact N; auto].
      * unfold s'. cbn [tick new_cell mem]. rewrite app_length. cbn [length]. intros q Hq. exists a. unfold h'. rewrite slot_same. cbn [context].
        f_equal. lia.
      * left. split; [reflexivity|]. split; [reflexivity|]. split; [|intros b [<-|[]] _; exact P].
        intros b [<-|[]] _. exists (length (mem s)), (init_ctx a). split; [unfold h'; now rewrite slot_same|]. split; [exact Cn|apply init_repr].
    + change (-1 =? 1)%Z with false. cbn iota. unfold bind, error_set, ret.
      eexists _, _, _. split; [reflexivity|]. set (h' := set_slot _ _ _).
      assert (Hctx : forall b, context (slots h' b) = context (slots h b)).
      { intros b. unfold h'. destruct (algid_dec a b) as [<-|N]; [rewrite slot_same; cbn; congruence|now rewrite slot_other]. }
      unfold init_ok. split; [exact W|]. split; [|split; [|split; [intros ? ? Hu; exact Hu|split; [cbn; lia|split; [cbn; lia|split; [|split; [|split; [|split]]]]]]]].
      * apply (set_ctx_ok s h a None H). discriminate.
      * apply rest_set.
      * intros b Hb. unfold h'. apply slot_other. intros ->. apply Hb. now left.
      * intros b q. rewrite Hctx. auto.
      * intros b q. rewrite Hctx. auto.
      * cbn [mem add_err tick]. intros q Hq. lia.
      * right. split; [reflexivity|]. split; [|right; exists (tries s); cbn; split; [lia|exact Al]].
        unfold errors_added. cbn [errs add_err tick]. destruct e; [|reflexivity]. rewrite <- app_assoc. cbn [app]. eauto.
Qed.

Lemma absorbed_unchanged : forall s s' h h' m a, unchanged s s' -> slots h' a = slots h a -> absorbed s h m a -> absorbed s' h' m a.
Proof.
  intros s s' h h' m a U Hs A C. rewrite Hs in *. destruct (A C) as (p & c & Hp & Hc & R). exists p, c. split; [exact Hp|]. split; [now apply U|exact R].
Qed.

Lemma initialize_steps : forall E e l h s, NoDup l -> wf_state s -> handle_ok s h ->
  exists r h' s', steps (initialize_slot E e) l h s = Done (r, h') s' /\ init_ok E e l h s r h' s'.
Proof.
  induction l as [|a t IH]; intros h s ND W H.
  { exists 1%Z, h, s. split; [reflexivity|]. apply init_ok_none; try assumption. intros b []. }
  inversion ND as [|x y Na ND' Q]; subst. cbn [steps].
  destruct (initialize_slot_ok E e a h s W H) as (r & h1 & s1 & H1 & W1 & O1 & R1 & U1 & T1 & L1 & S1 & K1 & J1 & N1 & X1).
  erewrite bind_done by exact H1. cbn [fst snd]. destruct X1 as [(-> & E1 & A1 & F1)|(-> & E1 & F1)].
  - change (1 =? 1)%Z with true. cbn iota.
    destruct (IH h1 s1 ND' W1 O1) as (r & h2 & s2 & H2 & W2 & O2 & R2 & U2 & T2 & L2 & S2 & K2 & J2 & N2 & X2).
    assert (St : forall b, In b t -> slots h1 b = slots h b) by (intros b Hb; apply S1; intros [<-|[]]; contradiction).
    exists r, h2, s2. split; [exact H2|]. unfold init_ok. split; [exact W2|]. split; [exact O2|].
    split; [eapply rest_trans; eassumption|]. split; [eapply unchanged_trans; eassumption|]. split; [lia|]. split; [lia|]. split; [|split; [|split; [|split]]].
    + intros b Hb. rewrite S2, S1; [reflexivity| |]; intros Hx; apply Hb; [destruct Hx as [<-|[]]; now left|now right].
    + intros b p Hp. now apply K2, K1.
    + intros b p Hp. destruct (J2 b p Hp) as [Hq|Hq]; [|right; lia]. now apply J1.
    + intros p Hp. destruct (Nat.lt_ge_cases p (length (mem s1))) as [Hlt|Hge]; [|apply N2; lia].
      destruct (N1 p) as (b & Hb); [lia|]. exists b. now apply K2.
    + destruct X2 as [(-> & E2 & A2 & F2)|(-> & E2 & F2)].
      * left. split; [reflexivity|]. split; [congruence|]. split.
        -- intros b [<-|Hb]; [|now apply A2]. apply (absorbed_unchanged s1 s2 h1 h2 [] a U2); [now apply S2|]. apply A1. now left.
        -- intros b [<-|Hb] C; [apply F1; [now left|exact C]|]. rewrite <- (St b Hb) in *. now apply F2.
      * right. split; [reflexivity|]. split; [now apply (errors_added_same e s s1)|].
        destruct F2 as [(b & Hb & C & P)|(i & Hi & F2)].
        -- left. exists b. rewrite <- (St b Hb). split; [now right|]. split; assumption.
        -- right. exists i. split; [lia|exact F2].
  - change (-1 =? 1)%Z with false. cbn iota. unfold ret. exists (-1)%Z, h1, s1. split; [reflexivity|].
    unfold init_ok. repeat (split; [eassumption|]). split; [|split; [exact K1|split; [exact J1|split; [exact N1|]]]].
    + intros b Hb. apply S1. intros [<-|[]]. apply Hb. now left.
    + right. split; [reflexivity|]. split; [exact E1|]. destruct F1 as [(b & [<-|[]] & F1)|F1]; [left; exists a; split; [now left|exact F1]|now right].
Qed.

(* a context that the handle owns is freed *)
Lemma drop_context_ok : forall a h s, wf_state s -> handle_ok s h ->
  exists h' s', drop_context a h s = Done h' s' /\ wf_state s' /\ handle_ok s' h' /\ rest_same h h' /\
    length (mem s') = length (mem s) /\ tries s' = tries s /\ errs s' = errs s /\
    (forall b, a <> b -> slots h' b = slots h b) /\ context (slots h' a) = None /\
    (forall q, context (slots h a) <> Some q -> cell_at s' q = cell_at s q) /\
    (forall q, context (slots h a) = Some q -> ~ live_at s' q).
Proof.
  intros a h s W H. unfold drop_context. destruct (context (slots h a)) as [p|] eqn:P.
  2:{ exists h, s. split; [reflexivity|]. split; [exact W|]. split; [exact H|]. split; [apply rest_refl|]. repeat split; auto; discriminate. }
  destruct (proj1 (proj2 (proj2 H) a) p P) as (c & Hc).
  cbn [context_free]. rewrite bind_assoc. erewrite bind_done by (eapply mfree_ok; exact Hc). rewrite bind_ret. cbn [fst snd]. unfold ret.
  eexists _, _. split; [reflexivity|]. split; [now apply wf_kill|]. split; [|split; [apply rest_set|]].
  - destruct H as (Hs & Hi & Ha). unfold heap_bytes in *.
    assert (K : forall q l, cell_at s q = Some (mk_cell true Heap (OBytes l)) -> cell_at (kill p s) q = Some (mk_cell true Heap (OBytes l))).
    { intros q l Hq. rewrite cell_kill_other; [exact Hq|]. intros ->. congruence. }
    split; [now apply K|]. split; [now apply K|]. intros b. destruct (Ha b) as (A & B & C). cbn [h_self h_input].
    destruct (algid_dec a b) as [<-|N]; [rewrite slot_same; cbn [context hash_string calculate]|rewrite slot_other by exact N].
    + split; [discriminate|]. split; [|exact C]. intros q Hq. destruct (B q Hq) as (l & Hl & Ll). exists l. split; [now apply K|exact Ll].
    + split; [|split; [|exact C]].
      * intros q Hq. destruct (A q Hq) as (d & Hd). exists d. rewrite cell_kill_other; [exact Hd|]. intros ->. rewrite Hc in Hd. congruence.
      * intros q Hq. destruct (B q Hq) as (l & Hl & Ll). exists l. split; [now apply K|exact Ll].
  - split; [apply kill_length|]. split; [apply kill_tries|]. split; [apply kill_errs|]. split; [intros b N; now rewrite slot_other|].
    split; [now rewrite slot_same|]. split; [intros q Hq; apply cell_kill_other; congruence|].
    intros q [= <-] (x & Hx & Lx). rewrite (cell_kill_same _ _ _ _ Hc) in Hx. injection Hx as <-. discriminate.
Qed.

(* live memory in s' belongs to h', or was live before and stays with its owner *)
Definition keeps (h h' : handle) (s s' : state) : Prop :=
  forall p, live_at s' p -> owned h' p \/ (live_at s p /\ (owned h p -> owned h' p)).
Lemma keeps_refl : forall h s, keeps h h s s.
Proof. intros h s p H. now right. Qed.
Lemma keeps_trans : forall h h1 h2 s s1 s2, keeps h h1 s s1 -> keeps h1 h2 s1 s2 -> keeps h h2 s s2.
Proof.
  intros h h1 h2 s s1 s2 A B p H. destruct (B p H) as [O|(L & O)]; [now left|]. destruct (A p L) as [O'|(L' & O')]; [left; now apply O|].
  right. split; [exact L'|]. intros X. now apply O, O'.
Qed.
Lemma keeps_accounted : forall s0 h h' s s', keeps h h' s s' -> accounted s0 s h -> accounted s0 s' h'.
Proof. intros s0 h h' s s' K A p Hp L. destruct (K p L) as [O|(L' & O)]; [exact O|]. apply O. now apply A. Qed.
Lemma owned_rest : forall h h' p, rest_same h h' -> (forall a q, context (slots h a) = Some q -> q = p -> exists b, context (slots h' b) = Some p) -> owned h p -> owned h' p.
Proof.
  intros h h' p [(A & B & C) _ _] K [->|[->|(a & [H|H])]].
  - left. now symmetry.
  - right. left. now symmetry.
  - right. right. destruct (K a p H eq_refl) as (b & Hb). exists b. now left.
  - right. right. exists a. right. destruct (C a) as (_ & ->). exact H.
Qed.
Lemma live_at_same : forall s s' p, nth_error (mem s') p = nth_error (mem s) p -> live_at s' p -> live_at s p.
Proof. intros s s' p H (c & Hc & L). exists c. split; [congruence|exact L]. Qed.
Lemma live_at_lt : forall s p, live_at s p -> (p < length (mem s))%nat.
Proof. intros s p (c & Hc & _). exact (cell_lt _ _ _ Hc). Qed.
Lemma unchanged_cell : forall s s' p, unchanged s s' -> (p < length (mem s))%nat -> cell_at s' p = cell_at s p.
Proof.
  intros s s' p U H. destruct (cell_at s p) as [c|] eqn:C; [now apply U|]. apply nth_error_None in C. lia.
Qed.

Lemma init_keeps : forall E e l h s r h' s', init_ok E e l h s r h' s' -> keeps h h' s s'.
Proof.
  intros E e l h s r h' s' (W & O & R & U & T & L & S & K & J & N & _) p Hp.
  destruct (Nat.lt_ge_cases p (length (mem s))) as [Hlt|Hge].
  - right. split; [exact (live_at_same _ _ _ (unchanged_cell _ _ _ U Hlt) Hp)|].
    apply owned_rest; [exact R|]. intros a q Hq ->. exists a. now apply K.
  - left. destruct (N p) as (a & Ha); [pose proof (live_at_lt _ _ Hp); lia|]. right. right. exists a. now left.
Qed.

Lemma initialize_integrity_ok : forall E e h s, wf_state s -> handle_ok s h ->
  exists r h' s', sum_handle_initialize_integrity_hash E h e s = Done (r, h') s' /\
    wf_state s' /\ handle_ok s' h' /\ rest_same h h' /\ keeps h h' s s' /\ (tries s <= tries s')%nat /\ (length (mem s) <= length (mem s'))%nat /\
    (forall q, (q < length (mem s))%nat -> (forall a, context (slots h a) <> Some q) -> cell_at s' q = cell_at s q) /\
    (forall a p, context (slots h' a) = Some p -> context (slots h a) = Some p \/ (length (mem s) <= p)%nat) /\
    ((r = 1%Z /\ unchanged s s' /\ errs s' = errs s /\ (forall a, absorbed s' h' [] a) /\
      (forall a, calculate (slots h a) = true -> context (slots h a) = None)) \/
     (r = (-1)%Z /\ errors_added e s s' /\
      ((exists a, calculate (slots h a) = true /\ context (slots h a) <> None) \/ some_alloc_failed E s s'))).
Proof.
  intros E e h s W H. unfold sum_handle_initialize_integrity_hash.
  destruct (initialize_steps E e all_algs h s all_nodup W H) as (r & h1 & s1 & H1 & I1).
  pose proof (init_keeps _ _ _ _ _ _ _ _ I1) as KP1.
  destruct I1 as (W1 & O1 & R1 & U1 & T1 & L1 & S1 & K1 & J1 & N1 & X1).
  erewrite bind_done by exact H1. cbn [fst snd]. destruct X1 as [(-> & E1 & A1 & F1)|(-> & E1 & F1)].
  - change (1 =? 1)%Z with true. cbn iota. unfold ret. exists 1%Z, h1, s1. split; [reflexivity|].
    split; [exact W1|]. split; [exact O1|]. split; [exact R1|]. split; [exact KP1|]. split; [exact T1|]. split; [exact L1|].
    split; [intros q Hq _; now apply unchanged_cell|]. split; [exact J1|]. left.
    split; [reflexivity|]. split; [exact U1|]. split; [exact E1|]. split; [intros a; apply A1, all_in|intros a; apply F1, all_in].
  - change (-1 =? 1)%Z with false. cbn iota.
    destruct (drop_context_ok SHA1 h1 s1 W1 O1) as (h2 & s2 & H2 & W2 & O2 & R2 & L2 & T2 & E2 & S2 & N2 & F2 & D2).
    erewrite bind_done by exact H2.
    destruct (drop_context_ok MD5 h2 s2 W2 O2) as (h3 & s3 & H3 & W3 & O3 & R3 & L3 & T3 & E3 & S3 & N3 & F3 & D3).
    erewrite bind_done by exact H3. unfold ret.
    assert (KD : forall a h s h' s', rest_same h h' -> (forall b, a <> b -> slots h' b = slots h b) ->
              (forall q, context (slots h a) <> Some q -> cell_at s' q = cell_at s q) ->
              (forall q, context (slots h a) = Some q -> ~ live_at s' q) -> keeps h h' s s').
    { clear. intros a h s h' s' R S F D p Hp. right.
      assert (Np : context (slots h a) <> Some p) by (intros Q; exact (D p Q Hp)).
      split; [exact (live_at_same _ _ _ (F p Np) Hp)|]. apply owned_rest; [exact R|]. intros b q Hq ->. exists b.
      rewrite S; [exact Hq|]. intros ->. contradiction. }
    exists (-1)%Z, h3, s3. split; [reflexivity|]. split; [exact W3|]. split; [exact O3|].
    split; [eapply rest_trans; [exact R1|]; eapply rest_trans; eassumption|].
    split.
    { eapply keeps_trans; [exact KP1|]. eapply keeps_trans; [eapply (KD SHA1 h1 s1 h2 s2); eassumption|eapply (KD MD5 h2 s2 h3 s3); eassumption]. }
    split; [lia|]. split; [lia|].
    assert (J2 : forall a p, context (slots h2 a) = Some p -> context (slots h1 a) = Some p).
    { intros a p Hp. destruct (algid_dec SHA1 a) as [<-|N]; [congruence|]. now rewrite <- S2. }
    assert (J3 : forall a p, context (slots h3 a) = Some p -> context (slots h2 a) = Some p).
    { intros a p Hp. destruct (algid_dec MD5 a) as [<-|N]; [congruence|]. now rewrite <- S3. }
    split; [|split].
    + intros q Hq Nq. assert (N1q : forall a, context (slots h1 a) <> Some q).
      { intros a Ha. destruct (J1 a q Ha) as [X|X]; [exact (Nq a X)|lia]. }
      rewrite F3, F2; [now apply unchanged_cell|apply N1q|]. intros Hx. exact (N1q _ (J2 _ _ Hx)).
    + intros a p Hp. now apply J1, J2, J3.
    + right. split; [reflexivity|]. split; [apply (errors_added_same' e s s1); [congruence|exact E1]|].
      destruct F1 as [(a & _ & F1)|(i & Hi & F1)]; [left; exists a; exact F1|right; exists i; split; [lia|exact F1]].
Qed.
