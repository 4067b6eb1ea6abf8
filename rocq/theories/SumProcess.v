(* Processing an input with the sum handle. *)
From Coq Require Import Arith NArith ZArith List Bool Lia.
From Verif Require Import Words Spec Machine MachineFacts Context ContextFacts ReprFacts DigestFacts Hash HashFacts HmacFacts
  Vocab HistoryFacts LibProofs LibTheorems ToolStrings ToolVocab ToolStringsFacts ToolProofs SumHandle SumVocab SumFacts.
Import ListNotations.
Open Scope N_scope.

Notation cell_at s p := (nth_error (mem s) p).

(* why a run of the loop that started at read k failed with read k' - 1, at offset pos *)
Definition read_trouble (W : input) (size : N) (k' : nat) (pos : N) : Prop :=
  exists j, k' = S j /\ (in_read W j = None \/ in_read W j = Some 0 \/ (pos = N.of_nat (length (in_data W)) /\ pos < size)).

(* the offsets at which the reads began, and the errors *)
Definition loop_reads (W : input) (b size pos pos' : N) (k : nat) (r : Z) (k' : nat) (e : bool) (s s' : state) : Prop :=
  pos = position W b size k ->
  (r = 1%Z -> pos' = position W b size k' /\ forall j, (k <= j < k')%nat -> position W b size j < position W b size (S j)) /\
  (r = (-1)%Z -> exists j, k' = S j /\ pos' = position W b size j /\ position W b size (S j) = position W b size j /\
    (forall i, (k <= i < j)%nat -> position W b size i < position W b size (S i)) /\
    errs s' = errs s ++ (if e then match in_read W j with None => [E_IO_READ_FAILED; E_IO_READ_FAILED] | Some _ => [E_IO_READ_FAILED] end else [])).

Definition loop_ok (E : env) (W : input) (signal : option nat) (t0 : nat) (h : handle) (b : nat) (size pos : N) (k : nat) (e : bool)
  (s : state) (r : Z) (k' : nat) (s' : state) : Prop :=
  wf_state s' /\ length (mem s') = length (mem s) /\ tries s' = tries s /\
  (forall q, q <> b -> no_ctx h all_algs q -> cell_at s' q = cell_at s q) /\
  (exists l, cell_at s' b = Some (mk_cell true Heap (OBytes l))) /\
  exists pos', pos <= pos' <= size /\ pos' <= N.of_nat (length (in_data W)) /\ (k <= k')%nat /\
    (forall a, absorbed s' h (firstn (N.to_nat pos') (in_data W)) a) /\
    ((r = 1%Z /\ errs s' = errs s /\ (k' - k <= N.to_nat (pos' - pos))%nat /\
      (forall j, (k <= j < k')%nat -> exists n, in_read W j = Some n /\ n <> 0) /\
      (pos' = size \/ (exists j, k' = S j /\ (k <= j)%nat /\ (h_abort h = true \/ arrived signal (t0 + j) = true)))) \/
     (r = (-1)%Z /\ errors_added e s s' /\ pos' < size /\ (k' - k <= S (N.to_nat (pos' - pos)))%nat /\ (k < k')%nat /\ read_trouble W size k' pos')) /\
    loop_reads W (process_buffer_size h) size pos pos' k r k' e s s'.

Lemma firstn_more : forall A (l : list A) n m, firstn n l ++ firstn m (skipn n l) = firstn (n + m) l.
Proof.
  intros A l n m. rewrite <- (firstn_skipn n l) at 3. destruct (Nat.le_gt_cases n (length l)).
  - rewrite firstn_app, firstn_length, Nat.min_l by assumption. rewrite firstn_firstn, Nat.min_r by lia. f_equal. f_equal. lia.
  - rewrite !skipn_all2, firstn_nil, !app_nil_r by lia. rewrite !firstn_all2; try lia; try reflexivity.
Qed.

Lemma put_start : forall l d, put l 0 d = d ++ skipn (length d) l.
Proof. reflexivity. Qed.

Lemma process_loop_ok : forall E W signal t0 h b size e, Forall is_byte (in_data W) ->
  0 < process_buffer_size h -> process_buffer_size h <= ssize_max E -> size < 2 ^ 64 ->
  (forall a, context (slots h a) <> Some b) ->
  forall fuel pos k s l, wf_state s -> (forall a, absorbed s h (firstn (N.to_nat pos) (in_data W)) a) ->
  cell_at s b = Some (mk_cell true Heap (OBytes l)) -> length l = N.to_nat (process_buffer_size h) ->
  pos <= size -> pos <= N.of_nat (length (in_data W)) -> (N.to_nat (size - pos) < fuel)%nat ->
  exists r k' s', process_loop E fuel W signal t0 h (b, 0) size pos k e s = Done (r, k') s' /\
    loop_ok E W signal t0 h b size pos k e s r k' s'.
Proof.
  intros E W signal t0 h b size e DB Bpos Bmax Smax Hb.
  induction fuel as [|fuel IH]; intros pos k s l Wf A Cb Ll Hpos Hdata Hf; [lia|].
  cbn [process_loop]. destruct (N.ltb_spec pos size) as [Hlt|Hge].
  2:{ exists 1%Z, k, s. split; [reflexivity|]. unfold loop_ok. split; [exact Wf|]. split; [reflexivity|]. split; [reflexivity|].
      split; [reflexivity|]. split; [eauto|]. exists pos. split; [lia|]. split; [exact Hdata|]. split; [lia|]. split; [exact A|].
      split.
      - left. split; [reflexivity|]. split; [reflexivity|]. split; [lia|]. split; [intros; lia|]. left. lia.
      - intros Q. split; [intros _; split; [exact Q|intros; lia]|discriminate]. }
  set (want := if size - pos <? process_buffer_size h then (size - pos) mod size_mod E else process_buffer_size h).
  assert (Hw : 0 < want <= process_buffer_size h /\ want <= size - pos).
  { unfold want. assert (ssize_max E < size_mod E) by (unfold ssize_max, size_mod; destruct (plat64 E); lia).
    destruct (N.ltb_spec (size - pos) (process_buffer_size h)); [|lia]. rewrite N.mod_small by lia. lia. }
  cbn [sum_handle_read_buffer]. destruct (N.ltb_spec (ssize_max E) want); [lia|].
  destruct (in_read W k) as [most|] eqn:Rk.
  2:{ unfold bind at 1. rewrite fail_eq. change (-1 <? 0)%Z with true. cbn iota. unfold bind, fail, error_set, ret. cbn [bind].
      eexists _, _, _. split; [reflexivity|]. unfold loop_ok. split; [eapply wf_same_mem; [reflexivity|exact Wf]|].
      split; [reflexivity|]. split; [reflexivity|]. split; [reflexivity|]. split; [eauto|].
      exists pos. split; [lia|]. split; [exact Hdata|]. split; [lia|]. split; [exact A|]. split.
      - right. split; [reflexivity|]. split; [|split; [exact Hlt|split; [lia|split; [lia|]]]].
        + unfold errors_added. cbn [errs add_err]. destruct e; [|reflexivity]. rewrite <- app_assoc. cbn [app]. eauto.
        + exists k. split; [reflexivity|]. now left.
      - intros Q. split; [discriminate|]. intros _. exists k. split; [reflexivity|]. split; [exact Q|].
        split; [cbn [position]; rewrite Rk; lia|]. split; [intros; lia|]. rewrite Rk. cbn [errs add_err].
        destruct e; [now rewrite <- app_assoc|now rewrite app_nil_r]. }
  set (data := firstn (N.to_nat (N.min most want)) (skipn (N.to_nat pos) (in_data W))).
  assert (Ld : N.of_nat (length data) = N.min (N.min most want) (N.of_nat (length (in_data W)) - pos)).
  { unfold data. rewrite firstn_length, skipn_length. lia. }
  assert (PS : pos = position W (process_buffer_size h) size k -> position W (process_buffer_size h) size (S k) = pos + N.of_nat (length data)).
  { intros Q. cbn [position]. rewrite Rk, <- Q, Ld. f_equal. unfold want.
    assert (ssize_max E < size_mod E) by (unfold ssize_max, size_mod; destruct (plat64 E); lia).
    destruct (N.ltb_spec (size - pos) (process_buffer_size h)); [rewrite N.mod_small by lia|]; lia. }
  rewrite bind_assoc. erewrite bind_done by (eapply write_ok; [exact (get_cell _ _ _ _ Cb)|cbn [snd]; lia]).
  rewrite bind_ret. cbn [fst snd].
  set (s1 := set_obj b (OBytes (put l 0 data)) s).
  assert (Bd : Forall is_byte data) by (unfold data; apply Forall_firstn; now apply Forall_skipn).
  assert (Wl : Forall is_byte l) by exact (Wf _ _ (get_cell _ _ _ _ Cb)).
  assert (W1 : wf_state s1).
  { apply wf_set; [exact Wf|]. cbn [obj_ok]. rewrite put_start. apply Forall_app. split; [exact Bd|]. now apply Forall_skipn. }
  assert (C1 : cell_at s1 b = Some (mk_cell true Heap (OBytes (put l 0 data)))) by (eapply cell_set_same; exact Cb).
  assert (F1 : forall q, q <> b -> cell_at s1 q = cell_at s q) by (intros q Hq; apply cell_set_other; congruence).
  assert (A1 : forall a, absorbed s1 h (firstn (N.to_nat pos) (in_data W)) a).
  { intros a. apply (absorbed_cell s s1); [apply A|]. intros p _ Hp. apply F1. intros ->. exact (Hb a Hp). }
  assert (Lp : length (put l 0 data) = length l) by (apply put_length; lia).
  destruct (Z.ltb_spec (Z.of_nat (length data)) 0); [lia|].
  destruct (Z.eqb_spec (Z.of_nat (length data)) 0) as [Z0|Z0].
  { (* nothing was read *)
    unfold bind, fail, error_set, ret. cbn [bind].
    eexists _, _, _. split; [reflexivity|]. unfold loop_ok. split; [eapply wf_same_mem; [reflexivity|exact W1]|].
    split; [cbn [mem]; apply set_obj_length|]. split; [cbn [tries]; apply set_obj_tries|]. split; [intros q Hq _; now apply F1|]. split; [eauto|].
    exists pos. split; [lia|]. split; [exact Hdata|]. split; [lia|]. split; [exact A1|]. split.
    - right. split; [reflexivity|]. split; [|split; [exact Hlt|split; [lia|split; [lia|]]]].
      + eapply errors_added_one. cbn [errs]. unfold s1. rewrite set_obj_errs. reflexivity.
      + exists k. split; [reflexivity|]. right. destruct (N.eq_dec most 0) as [->|]; [now left|]. right. lia.
    - intros Q. split; [discriminate|]. intros _. exists k. split; [reflexivity|]. split; [exact Q|].
      split; [rewrite PS by exact Q; lia|]. split; [intros; lia|]. rewrite Rk. cbn [errs]. unfold s1. rewrite set_obj_errs.
      destruct e; [reflexivity|now rewrite app_nil_r]. }
  replace (Z.to_N (Z.of_nat (length data))) with (N.of_nat (length data)) by lia. set (n := N.of_nat (length data)) in *.
  unfold sum_handle_update_integrity_hash.
  destruct (N.eqb_spec n 0); [lia|]. destruct (N.ltb_spec (ssize_max E) n); [lia|]. cbn [orb].
  assert (Acc : accessible s1 (b, 0) n).
  { exists (put l 0 data). split; [exact (get_cell _ _ _ _ C1)|]. cbn [snd]. lia. }
  destruct (update_steps E (b, 0) n e h (firstn (N.to_nat pos) (in_data W)) all_algs s1 all_nodup W1 (fun a _ => A1 a) Acc ltac:(lia))
    as (s2 & H2 & W2 & A2 & F2 & L2 & T2 & E2).
  rewrite bind_assoc. erewrite bind_done by exact H2. rewrite bind_ret. cbn [fst]. change (1 =? 1)%Z with true. cbn iota.
  assert (Bn : bytes_at s1 (b, 0) n = data).
  { unfold bytes_at. cbn [fst snd]. rewrite (get_cell _ _ _ _ C1). change (skipn (N.to_nat 0) (put l 0 data)) with (put l 0 data). rewrite put_start.
    unfold n. rewrite Nat2N.id. rewrite firstn_app, Nat.sub_diag. cbn [firstn]. rewrite app_nil_r. now apply firstn_all2. }
  assert (Pf : firstn (N.to_nat pos) (in_data W) ++ data = firstn (N.to_nat (pos + n)) (in_data W)).
  { unfold data. rewrite firstn_more. destruct (N.le_gt_cases (N.min most want) (N.of_nat (length (in_data W)) - pos)).
    - f_equal. lia.
    - rewrite !firstn_all2; try reflexivity; lia. }
  rewrite Bn, Pf in A2.
  assert (C2 : cell_at s2 b = Some (mk_cell true Heap (OBytes (put l 0 data)))).
  { rewrite F2; [exact C1|]. intros a _ _. apply Hb. }
  assert (G2 : forall q, q <> b -> no_ctx h all_algs q -> cell_at s2 q = cell_at s q).
  { intros q Hq Nq. rewrite F2, F1; [reflexivity|exact Hq|exact Nq]. }
  assert (L12 : length (mem s2) = length (mem s)) by (rewrite L2; apply set_obj_length).
  assert (T12 : tries s2 = tries s) by (rewrite T2; apply set_obj_tries).
  assert (E12 : errs s2 = errs s) by (rewrite E2; apply set_obj_errs).
  rewrite N.mod_small by lia.
  assert (Rd : exists n, in_read W k = Some n /\ n <> 0) by (exists most; split; [exact Rk|lia]).
  destruct (h_abort h || arrived signal (t0 + k)) eqn:Ab.
  - exists 1%Z, (S k), s2. split; [reflexivity|]. unfold loop_ok. split; [exact W2|]. split; [exact L12|]. split; [exact T12|]. split; [exact G2|].
    split; [eauto|]. exists (pos + n). split; [lia|]. split; [lia|]. split; [lia|]. split; [intros a; apply A2, all_in|].
    split.
    { left. split; [reflexivity|]. split; [exact E12|]. split; [lia|]. split; [intros j Hj; assert (j = k) by lia; now subst|].
      right. exists k. split; [reflexivity|]. split; [lia|]. now apply orb_true_iff. }
    intros Q. split; [intros _|discriminate]. rewrite (PS Q). split; [reflexivity|]. intros j Hj. assert (j = k) by lia. subst j. rewrite (PS Q), <- Q. lia.
  - destruct (IH (pos + n) (S k) s2 (put l 0 data) W2 (fun a => A2 a (all_in a)) C2 ltac:(congruence) ltac:(lia) ltac:(lia) ltac:(lia))
      as (r & k' & s3 & H3 & W3 & L3 & T3 & F3 & C3 & pos' & P1 & P2 & P3 & A3 & X3 & Y3).
    exists r, k', s3. split; [exact H3|]. unfold loop_ok. split; [exact W3|]. split; [congruence|]. split; [congruence|].
    split; [intros q Hq Nq; rewrite F3, G2 by assumption; reflexivity|]. split; [exact C3|]. exists pos'. split; [lia|]. split; [exact P2|]. split; [lia|].
    split; [exact A3|]. split; [clear Y3|].
    1: destruct X3 as [(-> & E3 & K3 & R3 & X3)|(-> & E3 & S3 & K3 & J3 & X3)].
    + left. split; [reflexivity|]. split; [congruence|]. split; [lia|]. split.
      * intros j Hj. destruct (Nat.eq_dec j k) as [->|]; [exact Rd|]. apply R3. lia.
      * destruct X3 as [X3|(j & -> & Hj & X3)]; [now left|]. right. exists j. split; [reflexivity|]. split; [lia|exact X3].
    + right. split; [reflexivity|]. split; [now apply (errors_added_same e s s2)|]. split; [exact S3|]. split; [lia|]. split; [lia|exact X3].
    + intros Q. destruct (Y3 (eq_sym (PS Q))) as (Y1 & Y2). split; intros R.
      * destruct (Y1 R) as (Y & Y'). split; [exact Y|]. intros j Hj. destruct (Nat.eq_dec j k) as [->|]; [rewrite (PS Q), <- Q; lia|apply Y'; lia].
      * destruct (Y2 R) as (j & -> & Yp & Yq & Yr & Ye). exists j. split; [reflexivity|]. split; [exact Yp|]. split; [exact Yq|].
        split; [|now rewrite <- E12]. intros i Hi. destruct (Nat.eq_dec i k) as [->|]; [rewrite (PS Q), <- Q; lia|apply Yr; lia].
Qed.

(* ------------------------------------------------------------ process_input *)

Lemma no_ctx_dec : forall h l q, no_ctx h l q \/ exists a, In a l /\ calculate (slots h a) = true /\ context (slots h a) = Some q.
Proof.
  induction l as [|a t IH]; intros q; [left; intros a []|].
  destruct (calculate (slots h a)) eqn:C; [|destruct (IH q) as [N|(b & I & X)]].
  - destruct (context (slots h a)) as [p|] eqn:P; [destruct (Nat.eq_dec p q) as [->|N]|].
    + right. exists a. now split; [left|].
    + destruct (IH q) as [N'|(b & I & X)]; [|right; exists b; now split; [right|]]. left. intros b [<-|I] Cb; [congruence|now apply N'].
    + destruct (IH q) as [N'|(b & I & X)]; [|right; exists b; now split; [right|]]. left. intros b [<-|I] Cb; [congruence|now apply N'].
  - left. intros b [<-|I] Cb; [congruence|now apply N].
  - right. exists b. now split; [right|].
Qed.
Lemma is_string_dec : forall h l q, is_string h l q \/ ~ is_string h l q.
Proof.
  induction l as [|a t IH]; intros q; [right; intros (a & [] & _)|].
  destruct (IH q) as [(b & I & X)|N]; [left; exists b; now split; [right|]|].
  destruct (calculate (slots h a)) eqn:C; [destruct (hash_string (slots h a)) as [p|] eqn:P; [destruct (Nat.eq_dec p q) as [->|D]|]|].
  - left. exists a. now split; [left|].
  - right. intros (b & [<-|I] & Cb & Pb); [congruence|apply N; exists b; auto].
  - right. intros (b & [<-|I] & Cb & Pb); [congruence|apply N; exists b; auto].
  - right. intros (b & [<-|I] & Cb & Pb); [congruence|apply N; exists b; auto].
Qed.

Lemma handle_ok_cells : forall s s' h, handle_ok s h -> (forall p, owned h p -> cell_at s' p = cell_at s p) -> handle_ok s' h.
Proof.
  intros s s' h (Hs & Hi & Ha) F. unfold handle_ok, heap_bytes, heap_ctx in *. split; [rewrite F; [exact Hs|now left]|].
  split; [rewrite F; [exact Hi|right; now left]|]. intros a. destruct (Ha a) as (A & B & C). split; [|split; [|exact C]].
  - intros p Hp. rewrite F; [now apply A|]. right. right. exists a. now left.
  - intros q Hq. rewrite F; [now apply B|]. right. right. exists a. now right.
Qed.

Lemma handle_ok_string : forall s h a, handle_ok s h -> string_ok s h a.
Proof. intros s h a (_ & _ & H) q Hq. now apply (proj1 (proj2 (H a))). Qed.

Lemma owned_lt : forall s h p, handle_ok s h -> owned h p -> (p < length (mem s))%nat.
Proof.
  intros s h p (Hs & Hi & Ha) [->|[->|(a & [O|O])]].
  - exact (cell_lt _ _ _ Hs).
  - exact (cell_lt _ _ _ Hi).
  - destruct (proj1 (Ha a) p O) as (c & Hc). exact (cell_lt _ _ _ Hc).
  - destruct (proj1 (proj2 (Ha a)) p O) as (l & Hl & _). exact (cell_lt _ _ _ Hl).
Qed.

(* a context that is not selected is no context of a selected digest *)
Lemma unselected : forall s h m a p, handle_ok s h -> (forall b, absorbed s h m b) -> context (slots h a) = Some p -> calculate (slots h a) = false ->
  no_ctx h all_algs p.
Proof.
  intros s h m a p (_ & _ & Ha) A P C b _ Cb Pb. destruct (A b Cb) as (p' & c & Hp' & Hc & _). assert (p' = p) by congruence. subst p'.
  destruct (proj1 (Ha a) p P) as (d & Hd). rewrite Hc in Hd. injection Hd as -> _. congruence.
Qed.

Lemma frame_handle : forall s s' h m b, handle_ok s h -> (forall a, absorbed s h m a) -> ~ owned h b ->
  (forall q, (q < length (mem s))%nat -> q <> b -> no_ctx h all_algs q -> ~ is_string h all_algs q -> cell_at s' q = cell_at s q) ->
  (forall a p, calculate (slots h a) = true -> context (slots h a) = Some p -> heap_ctx s' a p) ->
  (forall a q, hash_string (slots h a) = Some q -> exists l, heap_bytes s' q l /\ length l = N.to_nat (2 * digest_size a + 1)) ->
  handle_ok s' h.
Proof.
  intros s s' h m b H A Nb F HC HS. pose proof H as (Hs & Hi & Ha).
  assert (NC : forall q l, heap_bytes s q l -> no_ctx h all_algs q) by (intros q l Hq; exact (no_ctx_bytes s h m all_algs q Heap l (fun a _ => A a) Hq)).
  assert (NS : forall q l n, heap_bytes s q l -> (forall a, length l <> N.to_nat (2 * digest_size a + 1)) -> n = n :> nat -> ~ is_string h all_algs q).
  { intros q l n Hq Hl _ (a & _ & _ & Hx). destruct (proj1 (proj2 (Ha a)) q Hx) as (l' & Hl' & Ll'). unfold heap_bytes in *.
    assert (l = l') by congruence. subst. exact (Hl a Ll'). }
  split; [|split].
  - unfold heap_bytes. rewrite F; [exact Hs|exact (cell_lt _ _ _ Hs)|intros X; apply Nb; left; congruence|exact (NC _ _ Hs)|].
    apply (NS _ _ 0%nat Hs); [|reflexivity]. intros []; discriminate.
  - unfold heap_bytes. rewrite F; [exact Hi|exact (cell_lt _ _ _ Hi)|intros X; apply Nb; right; left; congruence|exact (NC _ _ Hi)|].
    apply (NS _ _ 0%nat Hi); [|reflexivity]. intros []; discriminate.
  - intros a. split; [|split; [apply HS|exact (proj2 (proj2 (Ha a)))]]. intros p P. destruct (calculate (slots h a)) eqn:C; [now apply HC|].
    destruct (proj1 (Ha a) p P) as (c & Hc). exists c. rewrite F; [exact Hc|exact (cell_lt _ _ _ Hc)| |now apply (unselected s h m a)|].
    + intros ->. apply Nb. right. right. exists a. now left.
    + intros (x & _ & _ & Hx). destruct (proj1 (proj2 (Ha x)) p Hx) as (l' & Hl' & _). unfold heap_bytes in *. congruence.
Qed.

Lemma dead_kill : forall s p k o, cell_at s p = Some (mk_cell true k o) -> ~ live_at (kill p s) p.
Proof. intros s p k o C (c & Hc & Lc). rewrite (cell_kill_same _ _ _ _ C) in Hc. injection Hc as <-. discriminate. Qed.

Definition process_trouble (E : env) (W : input) (h : handle) (s s' : state) (k : nat) : Prop :=
  process_buffer_size h = 0 \/ ssize_max E < process_buffer_size h \/ in_size W = None \/ some_alloc_failed E s s' \/
  (exists a, calculate (slots h a) = true /\ context (slots h a) <> None) \/
  (exists size n, in_size W = Some size /\ n < size /\ n <= N.of_nat (length (in_data W)) /\ read_trouble W size k n).

Definition process_ok (E : env) (W : input) (signal : option nat) (t0 : nat) (h : handle) (e : bool) (s : state)
  (r : Z) (h' : handle) (k : nat) (s' : state) : Prop :=
  wf_state s' /\ handle_ok s' h' /\ same_selection h h' /\ process_buffer_size h' = process_buffer_size h /\
  h_abort h' = h_abort h || (Nat.ltb 0 k && arrived signal (t0 + k - 1)) /\ keeps h h' s s' /\
  (tries s <= tries s')%nat /\ (length (mem s) <= length (mem s'))%nat /\
  (forall q, (q < length (mem s))%nat -> ~ owned h q -> cell_at s' q = cell_at s q) /\
  (forall a p, context (slots h' a) = Some p -> context (slots h a) = Some p \/ (length (mem s) <= p)%nat) /\
  (forall size, in_size W = Some size -> (k <= N.to_nat size)%nat) /\ (in_size W = None -> k = 0%nat) /\
  ((r = 1%Z /\ errs s' = errs s /\ 0 < process_buffer_size h <= ssize_max E /\
    (forall a, calculate (slots h a) = true -> context (slots h a) = None) /\
    (forall a, calculate (slots h' a) = true -> context (slots h' a) <> None) /\
    exists size n, in_size W = Some size /\ n <= size /\ n <= N.of_nat (length (in_data W)) /\
      has_digests s' h' (firstn (N.to_nat n) (in_data W)) /\ (k <= N.to_nat n)%nat /\
      (forall j, (j < k)%nat -> exists n, in_read W j = Some n /\ n <> 0) /\
      (n = size \/ exists j, k = S j /\ (h_abort h = true \/ arrived signal (t0 + j) = true))) \/
   (r = (-1)%Z /\ errors_added e s s' /\ same_strings s s' h /\ process_trouble E W h s s' k)).

Lemma same_selection_refl : forall h, same_selection h h.
Proof. intros h. split; [reflexivity|]. split; [reflexivity|]. intros a. split; reflexivity. Qed.
Lemma early : forall E W signal t0 h e k s s', wf_state s -> handle_ok s h -> mem s' = mem s ->
  (tries s <= tries s')%nat -> errs s' = (if e : bool then errs s ++ [k] else errs s) -> process_trouble E W h s s' 0 ->
  process_ok E W signal t0 h e s (-1)%Z h 0 s'.
Proof.
  intros E W signal t0 h e k s s' Wf H M T Er X. unfold process_ok. split; [now apply (wf_same_mem s)|].
  split; [apply (handle_ok_cells s); [exact H|]; intros; now rewrite M|]. split; [apply same_selection_refl|].
  split; [reflexivity|]. split; [cbn [Nat.ltb Nat.leb andb]; now rewrite orb_false_r|].
  split; [intros p Hp; right; split; [|auto]; unfold live_at in *; now rewrite <- M|]. split; [exact T|]. split; [now rewrite M|].
  split; [intros; now rewrite M|]. split; [auto|]. split; [intros; lia|]. split; [reflexivity|]. right.
  split; [reflexivity|]. split; [now apply (errors_added_one e k)|]. split; [|exact X]. intros a q _. now rewrite M.
Qed.

Lemma process_input_ok : forall E W signal t0 h e s, input_ok W -> wf_state s -> handle_ok s h ->
  exists r h' k s', sum_handle_process_input E W signal t0 (Some h) e s = Done (r, Some h', k) s' /\
    process_ok E W signal t0 h e s r h' k s'.
Proof.
  intros E W signal t0 h e s (DB & DS) Wf H. cbn [sum_handle_process_input].
  destruct (N.eqb_spec (process_buffer_size h) 0) as [B0|B0]; cbn [orb].
  { unfold bind. rewrite fail_eq. unfold ret. eexists _, _, _, _. split; [reflexivity|]. eapply early; [exact Wf|exact H|reflexivity|cbn; lia|reflexivity|now left]. }
  destruct (N.ltb_spec (ssize_max E) (process_buffer_size h)) as [B1|B1].
  { unfold bind. rewrite fail_eq. unfold ret. eexists _, _, _, _. split; [reflexivity|]. eapply early; [exact Wf|exact H|reflexivity|cbn; lia|reflexivity|right; now left]. }
  destruct (in_size W) as [size|] eqn:IS.
  2:{ unfold bind. rewrite fail_eq. unfold ret. eexists _, _, _, _. split; [reflexivity|]. eapply early; [exact Wf|exact H|reflexivity|cbn; lia|reflexivity|right; right; now left]. }
  unfold allocate_bytes. destruct (alloc_ok E (tries s)) eqn:AO.
  2:{ erewrite bind_done by (now apply allocate_no). unfold bind. rewrite fail_eq. unfold ret. eexists _, _, _, _. split; [reflexivity|].
      eapply early; [exact Wf|exact H|reflexivity|cbn; lia|reflexivity|]. right. right. right. left. exists (tries s). split; [cbn; lia|exact AO]. }
  erewrite bind_done by (now apply allocate_ok). set (b := length (mem s)). set (bl := junk_bytes _ _ _). set (sb := tick (new_cell Heap (OBytes bl) s)).
  assert (Ub : unchanged s sb) by apply unchanged_new.
  assert (Wb : wf_state sb) by (apply (wf_same_mem (new_cell Heap (OBytes bl) s)); [reflexivity|]; apply wf_new; [exact Wf|apply junk_ok]).
  assert (Cb : cell_at sb b = Some (mk_cell true Heap (OBytes bl))) by apply cell_new.
  assert (Lb : length (mem sb) = S b) by (unfold sb, b; cbn; rewrite app_length; cbn; lia).
  assert (Tb : tries sb = S (tries s)) by reflexivity.
  assert (Eb : errs sb = errs s) by reflexivity.
  assert (Hb : handle_ok sb h) by (now apply (handle_ok_unchanged s)).
  assert (Ob : ~ owned h b) by (intros O; pose proof (owned_lt _ _ _ H O); unfold b in *; lia).
  destruct (initialize_integrity_ok E e h sb Wb Hb) as (r1 & h1 & s1 & H1 & W1 & O1 & R1 & K1 & T1 & L1 & F1 & J1 & X1).
  erewrite bind_done by exact H1. cbn [fst snd].
  assert (Ob1 : ~ owned h1 b).
  { destruct R1 as [(Q1 & Q2 & Q3) _ _]. intros [O|[O|(a & [O|O])]]; apply Ob.
    - left. congruence.
    - right. left. congruence.
    - destruct (J1 a b O) as [X|X]; [right; right; exists a; now left|lia].
    - right. right. exists a. right. destruct (Q3 a) as (_ & <-). exact O. }
  assert (J1' : forall a p, context (slots h1 a) = Some p -> context (slots h a) = Some p \/ (length (mem s) <= p)%nat).
  { intros a p Hp. destruct (J1 a p Hp) as [X|X]; [now left|right; unfold b in *; lia]. }
  assert (Cb1 : cell_at s1 b = Some (mk_cell true Heap (OBytes bl))).
  { rewrite F1; [exact Cb|lia|]. intros a Ha. apply Ob. right. right. exists a. now left. }
  assert (Old : forall q, (q < b)%nat -> ~ owned h q -> cell_at s1 q = cell_at s q).
  { intros q Hq Nq. rewrite F1; [|lia|].
    - apply unchanged_cell; [exact Ub|exact Hq].
    - intros a Ha. apply Nq. right. right. exists a. now left. }
  assert (OldS : forall a q, hash_string (slots h a) = Some q -> cell_at s1 q = cell_at s q).
  { intros a q Ha. assert (Lq : (q < b)%nat) by (apply (owned_lt s h); [exact H|right; right; exists a; now right]).
    rewrite F1; [apply unchanged_cell; [exact Ub|exact Lq]|lia|]. intros x Hx. destruct H as (_ & _ & Ha').
    destruct (proj1 (Ha' x) q Hx) as (c & Hc). destruct (proj1 (proj2 (Ha' a)) q Ha) as (l & Hl & _). unfold heap_bytes in Hl. congruence. }
  assert (Back : forall q, live_at s1 q -> q <> b -> owned h1 q \/ (live_at s q /\ (owned h q -> owned h1 q))).
  { intros q Lq Nq. destruct (K1 q Lq) as [O|(Lq' & O)]; [now left|]. right. split; [|exact O].
    assert (q < b)%nat by (pose proof (live_at_lt _ _ Lq'); lia). apply (live_at_same s sb); [apply unchanged_cell; [exact Ub|assumption]|exact Lq']. }
  destruct X1 as [(-> & U1 & E1 & A1 & N1)|(-> & E1 & X1)].
  2:{ (* sum_handle_initialize_integrity_hash failed *)
      change (-1 =? 1)%Z with false. cbn iota. unfold bind at 1. unfold error_set, ret at 1.
      assert (Cb2 : forall er, cell_at (mk_state (mem s1) (tries s1) er (resid s1)) b = Some (mk_cell true Heap (OBytes bl))) by (intros; exact Cb1).
      erewrite bind_done by (eapply mfree_ok; apply Cb2). unfold ret. eexists _, _, _, _. split; [reflexivity|]. set (s2 := mk_state _ _ _ _).
      assert (FK : forall q, q <> b -> cell_at (kill b s2) q = cell_at s1 q) by (intros q Hq; rewrite cell_kill_other by congruence; reflexivity).
      unfold process_ok. split; [apply wf_kill; now apply (wf_same_mem s1)|].
      split; [apply (handle_ok_cells s1); [exact O1|]; intros p Hp; apply FK; intros ->; contradiction|].
      split; [apply R1|]. split; [apply R1|]. split; [cbn [Nat.ltb Nat.leb andb]; rewrite orb_false_r; apply R1|]. split.
      { intros q Lq. assert (Nq : q <> b).
        { intros ->. revert Lq. exact (dead_kill s2 b Heap (OBytes bl) Cb1). }
        apply Back; [|exact Nq]. exact (live_at_same _ _ _ (FK q Nq) Lq). }
      split; [rewrite kill_tries; cbn [tries s2]; lia|]. split; [rewrite kill_length; cbn [mem s2]; fold b; lia|].
      split; [intros q Hq Nq; rewrite FK; [now apply Old|fold b in Hq; lia]|]. split; [exact J1'|]. split; [intros; lia|]. split; [reflexivity|]. right.
      split; [reflexivity|]. split.
      { apply (errors_added_same' e s s2); [now rewrite kill_errs|]. apply (errors_added_trans e s s1); [apply (errors_added_same e s sb); [exact Eb|exact E1]|].
        apply (errors_added_one e E_RUNTIME_INITIALIZE_FAILED). reflexivity. }
      split.
      { intros a q Ha. rewrite FK; [exact (OldS a q Ha)|]. intros ->. apply Ob. right. right. exists a. now right. }
      right. right. right. destruct X1 as [X1|(i & Hi & X1)]; [right; left; exact X1|left].
      exists i. split; [rewrite kill_tries; cbn [tries s2]; lia|exact X1]. }
  change (1 =? 1)%Z with true. cbn iota.
  assert (PB : process_buffer_size h1 = process_buffer_size h) by apply R1.
  assert (Nb1 : forall a, context (slots h1 a) <> Some b) by (intros a Ha; apply Ob1; right; right; exists a; now left).
  destruct (process_loop_ok E W signal t0 h1 b size e DB ltac:(lia) ltac:(lia) (DS _ eq_refl) Nb1 (S (N.to_nat size)) 0 0 s1 bl W1 A1 Cb1
              ltac:(rewrite PB; apply junk_length) ltac:(lia) ltac:(lia) ltac:(lia))
    as (r2 & k & s2 & H2 & W2 & L2 & T2 & F2 & (bl2 & Cb2) & pos & P1 & P2 & P3 & A2 & X2 & Y2).
  erewrite bind_done by exact H2. cbn [fst snd]. erewrite bind_done by (eapply mfree_ok; exact Cb2).
  set (s3 := kill b s2).
  assert (FK : forall q, q <> b -> cell_at s3 q = cell_at s2 q) by (intros q Hq; apply cell_kill_other; congruence).
  assert (NC1 : forall q l, heap_bytes s1 q l -> no_ctx h1 all_algs q) by (intros q l Hq; exact (no_ctx_bytes s1 h1 [] all_algs q Heap l (fun a _ => A1 a) Hq)).
  assert (F3 : forall q, q <> b -> no_ctx h1 all_algs q -> cell_at s3 q = cell_at s1 q) by (intros q Hq Nq; rewrite FK, F2 by assumption; reflexivity).
  assert (W3 : wf_state s3) by (now apply wf_kill).
  assert (A3 : forall a, absorbed s3 h1 (firstn (N.to_nat pos) (in_data W)) a).
  { intros a. apply (absorbed_cell s2); [apply A2|]. intros p _ Hp. apply FK. intros ->. exact (Nb1 a Hp). }
  assert (S3 : forall a q, hash_string (slots h1 a) = Some q -> cell_at s3 q = cell_at s1 q).
  { intros a q Hq. destruct (handle_ok_string _ _ a O1 q Hq) as (l & Hl & _). apply F3; [|exact (NC1 _ _ Hl)].
    intros ->. apply Ob1. right. right. exists a. now right. }
  assert (O3 : handle_ok s3 h1).
  { apply (frame_handle s1 s3 h1 [] b O1 A1 Ob1).
    - intros q _ Hq Nq _. now apply F3.
    - intros a p Ca Pa. destruct (A3 a Ca) as (p' & c & Hp' & Hc & _). assert (p' = p) by congruence. subst. now exists c.
    - intros a q Hq. destruct (handle_ok_string _ _ a O1 q Hq) as (l & Hl & Ll). exists l. split; [|exact Ll]. unfold heap_bytes. now rewrite (S3 a q Hq). }
  assert (L3 : length (mem s3) = length (mem s1)) by (unfold s3; rewrite kill_length; exact L2).
  assert (Db : ~ live_at s3 b).
  { exact (dead_kill s2 b Heap (OBytes bl2) Cb2). }
  assert (Live3 : forall q, live_at s3 q -> owned h1 q \/ (live_at s q /\ (owned h q -> owned h1 q))).
  { intros q Lq. destruct (Nat.eq_dec q b) as [->|Nq]; [contradiction|]. destruct (no_ctx_dec h1 all_algs q) as [C|(a & _ & Ca & Pa)].
    - apply Back; [|exact Nq]. exact (live_at_same _ _ _ (F3 q Nq C) Lq).
    - left. right. right. exists a. now left. }
  assert (Old3 : forall q, (q < b)%nat -> ~ owned h q -> cell_at s3 q = cell_at s q).
  { intros q Hq Nq. rewrite F3; [now apply Old|lia|]. intros a _ _ Ha. destruct (J1 a q Ha) as [X|X]; [|lia]. apply Nq. right. right. exists a. now left. }
  set (h' := set_abort _ h1).
  assert (SS : same_selection h h') by apply R1.
  assert (AB : h_abort h' = h_abort h || (Nat.ltb 0 k && arrived signal (t0 + k - 1))) by (unfold h'; cbn [h_abort set_abort]; now rewrite (rs_abort _ _ R1)).
  destruct X2 as [(-> & E2 & K2 & RD & X2)|(-> & E2 & SP & K2 & J2 & X2)].
  - (* to the digests *)
    change (1 =? 1)%Z with true. cbn iota.
    destruct (finalize_ok E e h1 _ s3 W3 (fun a _ => A3 a) (fun a _ => handle_ok_string _ _ a O3)
                (fun a _ => proj1 (proj2 (proj2 (proj2 (proj2 O3) a)))))
      as (s4 & H4 & W4 & G4 & C4 & F4 & L4 & N4 & T4 & E4).
    erewrite bind_done by exact H4. change (1 =? 1)%Z with true. cbn iota. unfold ret.
    eexists _, _, _, _. split; [reflexivity|]. unfold process_ok. split; [exact W4|]. split.
    { apply (frame_handle s3 s4 h1 _ b O3 A3 Ob1).
      - intros q Hq _ Nq Sq. now apply F4.
      - intros a p Ca Pa. apply C4; [apply all_in|exact Ca|exact Pa].
      - intros a q Hq. assert (Ca : calculate (slots h1 a) = true) by (apply (proj2 (proj2 (proj2 (proj2 O3) a))); congruence).
        exists (hex (lib_hash a (firstn (N.to_nat pos) (in_data W))) ++ [0]). split; [apply G4; [apply all_in|exact Ca|exact Hq]|].
        rewrite app_length, hex_length, lib_hash_length. cbn [length]. lia. }
    split; [exact SS|]. split; [exact PB|]. split; [exact AB|]. split.
    { intros q Lq. change (owned h' q) with (owned h1 q). destruct (Nat.lt_ge_cases q (length (mem s3))) as [Hq|Hq]; [|now apply N4 in Lq].
      destruct (no_ctx_dec h1 all_algs q) as [C|(a & _ & Ca & Pa)]; [|left; right; right; exists a; now left].
      destruct (is_string_dec h1 all_algs q) as [(a & _ & Ca & Pa)|Sq]; [left; right; right; exists a; now right|].
      apply Live3. exact (live_at_same _ _ _ (F4 q Hq C Sq) Lq). }
    assert (T3 : tries s3 = tries s1) by (unfold s3; rewrite kill_tries; exact T2).
    split; [lia|]. split; [lia|]. split.
    { intros q Hq Nq. rewrite F4; [now apply Old3|unfold b in *; lia| |].
      - intros a _ _ Ha. destruct (J1 a q Ha) as [X|X]; [|unfold b in *; lia]. apply Nq. right. right. exists a. now left.
      - intros (a & _ & _ & Ha). apply Nq. right. right. exists a. right. destruct SS as (_ & _ & SS). destruct (SS a) as (_ & <-). exact Ha. }
    split; [exact J1'|]. split; [intros size' Q; assert (size' = size) by congruence; subst size'; lia|]. split; [congruence|]. left. split; [reflexivity|].
    split; [rewrite E4; unfold s3; rewrite kill_errs; congruence|]. split; [lia|]. split; [exact N1|].
    split; [intros a Ca; destruct (A3 a Ca) as (p & c & Hp & _); change (context (slots h1 a) <> None); congruence|].
    exists size, pos. split; [exact IS|]. split; [lia|]. split; [exact P2|]. split.
    { intros a q Ca Pa. exact (G4 a q (all_in a) Ca Pa). }
    split; [lia|]. split; [intros j Hj; apply RD; lia|].
    destruct X2 as [X2|(j & -> & _ & X2)]; [now left|right]. exists j. split; [reflexivity|].
    destruct R1 as [_ _ R1]. now rewrite <- R1.
  - (* a read failed *)
    change (-1 =? 1)%Z with false. cbn iota. unfold ret. eexists _, _, _, _. split; [reflexivity|]. unfold process_ok.
    split; [exact W3|]. split; [exact O3|]. split; [exact SS|]. split; [exact PB|]. split; [exact AB|]. split; [exact Live3|].
    assert (T3 : tries s3 = tries s1) by (unfold s3; rewrite kill_tries; exact T2).
    split; [lia|]. split; [lia|]. split; [exact Old3|]. split; [exact J1'|]. split; [intros size' Q; assert (size' = size) by congruence; subst size'; lia|]. split; [congruence|]. right.
    split; [reflexivity|]. split.
    { apply (errors_added_same' e s s2); [unfold s3; now rewrite kill_errs|]. apply (errors_added_same e s s1); [congruence|exact E2]. }
    split.
    { intros a q Ha. assert (Ha1 : hash_string (slots h1 a) = Some q) by (destruct SS as (_ & _ & SS); destruct (SS a) as (_ & X); exact (eq_trans X Ha)).
      rewrite (S3 a q Ha1). exact (OldS a q Ha). }
    right. right. right. right. right. exists size, pos. split; [exact IS|]. split; [exact SP|]. split; [exact P2|exact X2].
Qed.
