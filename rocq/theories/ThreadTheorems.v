(* Proofs of the theorems about threads. *)
From Coq Require Import Arith NArith ZArith List Lia Bool.
From Verif Require Import Words Spec Machine Vocab Context Hash History Threads ThreadVocab WordFacts TransformFacts MachineFacts ContextFacts DigestFacts HashFacts ReprFacts HistoryFacts HmacFacts LibProofs LibTheorems EvpFacts ThreadFacts.
Import ListNotations.
Open Scope N_scope.
Arguments N.mul : simpl never.
Arguments N.add : simpl never.
Arguments N.sub : simpl never.
Arguments N.pow : simpl never.
Arguments N.to_nat : simpl never.
Arguments N.of_nat : simpl never.
Arguments alg_of : simpl never.
Arguments spec_hash : simpl never.
Arguments lib_hash : simpl never.

Lemma run_andthen : forall A B (m : proc A) (f : A -> proc B) s, run_proc (andthen m f) s = bind (run_proc m) (fun a => run_proc (f a)) s.
Proof.
  intros A B m f. induction m as [a|C act k IH]; intros s; cbn [andthen run_proc]; [reflexivity|].
  unfold bind in *. destruct (act s) as [c s1|]; [|reflexivity]. apply IH.
Qed.

Lemma good_frames : forall fs s, good_state s -> good_state (add_frames fs s).
Proof. intros fs s G. exact G. Qed.
Lemma arg_set_ctx : forall s p a c c' b n, get_obj s p = Some (OCtx a c) -> arg s b n -> arg (set_obj p (OCtx a c') s) b n.
Proof.
  intros s p a c c' [q|] n H A; [|exact I]. destruct A as (l & L & B). exists l. split; [|exact B]. rewrite get_set_other; [exact L|]. intros ->. congruence.
Qed.
Lemma arg_set_bytes : forall s p l l' b n, get_obj s p = Some (OBytes l) -> length l' = length l -> arg s b n -> arg (set_obj p (OBytes l') s) b n.
Proof.
  intros s p l l' [q|] n H Q A; [|exact I]. destruct A as (m & L & B). destruct (Nat.eq_dec p (fst q)) as [->|D].
  - exists l'. rewrite H in L. injection L as <-. split; [exact (get_set_same _ _ _ _ H)|]. now rewrite Q.
  - exists m. split; [|exact B]. now rewrite get_set_other.
Qed.
Lemma arg_frames : forall fs s b n, arg s b n -> arg (add_frames fs s) b n.
Proof. intros fs s b n A. exact A. Qed.
Lemma arg_mem : forall s s' b n, mem s' = mem s -> arg s b n -> arg s' b n.
Proof. intros s s' b n H A. unfold arg, accessible, get_obj in *. now rewrite H. Qed.
Lemma good_mem : forall s s', mem s' = mem s -> good_state s -> good_state s'.
Proof. intros s s' H G. unfold good_state, get_obj in *. now rewrite H. Qed.
Lemma put_bytes : forall l o d, Forall is_byte l -> Forall is_byte d -> Forall is_byte (put l o d).
Proof. intros l o d L D. unfold put. repeat (apply Forall_app; split); auto using Forall_firstn, Forall_skipn. Qed.

Section Seq.
  Variable E : env.
  Definition ready (a : algid) (p : nat) (l : list tcall) (s : state) : Prop :=
    good_state s /\ ctx_arg s a (Some p) /\ Forall (call_arg s) l.

  Lemma call_args_step : forall (s s' : state) l, (forall b n, arg s b n -> arg s' b n) -> Forall (call_arg s) l -> Forall (call_arg s') l.
  Proof. intros s s' l H F. eapply Forall_impl; [|exact F]. intros [b n|h n]; cbn; apply H. Qed.

  Lemma call_ok : forall a p x l s, ready a p (x :: l) s -> exists r s', call_seq E a p x s = Done r s' /\ ready a p l s'.
  Proof.
    intros a p x l s (G & C & F). pose proof (Forall_inv F) as Fx. apply Forall_inv_tail in F.
    destruct x as [b n|h n]; cbn [call_seq call_arg] in *.
    - destruct (update_full E false a (Some p) b n true s G C Fx) as (r & s' & R & K). exists r, s'. split; [exact R|].
      destruct K as [(_ & _ & q & bp & c & fs & Q & -> & Gc & _ & ->)|(_ & _ & _ & M1 & _)].
      + injection Q as <-. split; [|split].
        * apply good_frames, good_set; [exact G|]. apply good_ctx_wf, update_fn_wf; [apply good_ctx_wf; exact (G _ _ Gc)|now apply bytes_bytes].
        * eexists. exact (get_set_same _ _ _ _ Gc).
        * eapply call_args_step; [|exact F]. intros. apply arg_frames. now apply (arg_set_ctx _ _ _ _ _ _ _ Gc).
      + split; [now apply (good_mem s)|]. split; [|eapply call_args_step; [|exact F]; intros; now apply (arg_mem s)].
        unfold ctx_arg, get_obj in *. now rewrite M1.
    - destruct (finalize_full E false a (Some p) h n true s G C Fx) as (r & s' & R & K). exists r, s'. split; [exact R|].
      destruct K as [(_ & [Hn _] & q & hp & c & hl & f & Q & -> & Gc & Gl & _ & D & ->)|(_ & _ & _ & M1 & _)].
      + injection Q as <-. pose proof (G _ _ Gc) as Wc. apply good_ctx_wf in Wc. pose proof (G _ _ Gl) as Bl. cbn in Bl.
        assert (Len : length (put hl (snd hp) (digest_fn a c)) = length hl).
        { apply put_length. rewrite digest_fn_length by exact Wc. rewrite digest_size_eq in Hn. destruct Fx as (l' & L1 & L2). rewrite Gl in L1. injection L1 as <-. lia. }
        assert (Gc' : get_obj (set_obj (fst hp) (OBytes (put hl (snd hp) (digest_fn a c))) s) p = Some (OCtx a c)) by (rewrite get_set_other by congruence; exact Gc).
        split; [|split].
        * apply good_frames, good_set; [apply good_set; [exact G|]|apply good_ctx_wf, zero_wf]. cbn. apply put_bytes; [exact Bl|]. apply digest_bytes_bytes.
        * eexists. exact (get_set_same _ _ _ _ Gc').
        * eapply call_args_step; [|exact F]. intros. apply arg_frames, (arg_set_ctx _ _ _ _ _ _ _ Gc'). now apply (arg_set_bytes _ _ _ _ _ _ Gl).
      + split; [now apply (good_mem s)|]. split; [|eapply call_args_step; [|exact F]; intros; now apply (arg_mem s)].
        unfold ctx_arg, get_obj in *. now rewrite M1.
  Qed.
  Lemma calls_ok : forall a p l s rs, ready a p l s -> exists r s', calls_seq E a p l rs s = Done r s'.
  Proof.
    intros a p l. induction l as [|x l IH]; intros s rs R; cbn [calls_seq]; [now do 2 eexists|].
    destruct (call_ok a p x l s R) as (r & s1 & Q & R1). erewrite bind_done by exact Q. now apply IH.
  Qed.
  Lemma calls_alone : forall a p l s rs, ready a p l s -> run_proc (calls_proc E a p l rs) s = calls_seq E a p l rs s.
  Proof.
    intros a p l. induction l as [|x l IH]; intros s rs R; cbn [calls_proc calls_seq]; [reflexivity|]. rewrite run_andthen.
    destruct (call_ok a p x l s R) as (r & s1 & Q & R1).
    assert (X : run_proc (call_proc E a p x) s = Done r s1).
    { rewrite <- Q. destruct R as (_ & _ & F). apply Forall_inv in F. destruct x as [b n|h n]; cbn [call_proc call_seq].
      - now apply update_alone.
      - unfold finalize_proc. cbn [run_proc]. apply bind_ret_r. }
    erewrite bind_done by exact X. erewrite bind_done by exact Q. now apply IH.
  Qed.
End Seq.

Lemma within : forall p l, Forall (call_within (p :: flat_map call_writes l) (p :: flat_map call_uses l)) l.
Proof.
  intros p l. apply Forall_forall. intros x X. destruct x as [[b|] n|[h|] n]; cbn; auto; right; apply in_flat_map; eexists; (split; [exact X|now left]).
Qed.
Lemma writes_uses : forall w, incl (writes w) (uses w).
Proof.
  intros w q [H|H]; [now left|]. right. apply in_flat_map in H. destruct H as (x & X & Y). apply in_flat_map. exists x. split; [exact X|].
  destruct x as [b n|[h|] n]; cbn in Y; [contradiction|exact Y|contradiction].
Qed.
Lemma works_defined : forall E s w, good_state s -> worker_args s w -> exists r s', calls_seq E (w_alg w) (w_ctx w) (w_calls w) [] s = Done r s' /\
  run_proc (worker_proc E w) s = Done r s'.
Proof.
  intros E s w G ((c & C) & F). assert (R : ready (w_alg w) (w_ctx w) (w_calls w) s) by (split; [exact G|split; [now exists c|exact F]]).
  destruct (calls_ok E _ _ _ s [] R) as (r & s' & Q). exists r, s'. split; [exact Q|]. unfold worker_proc. rewrite calls_alone by exact R. exact Q.
Qed.

Lemma one_for_each : forall A (P : nat -> A -> nat -> Prop) (l : list A), (forall i x, nth_error l i = Some x -> exists n, P i x n) ->
  exists f, forall i x, nth_error l i = Some x -> P i x (f i).
Proof.
  intros A P l. revert P. induction l as [|x l IH]; intros P H; [exists (fun _ => O); intros [|i]; discriminate|].
  destruct (H O x eq_refl) as (n & N). destruct (IH (fun i => P (S i)) (fun i y Y => H (S i) y Y)) as (f & F).
  exists (fun i => match i with O => n | S j => f j end). intros [|i] y Y; [injection Y as <-; exact N|]. now apply F.
Qed.

Lemma separate_threads : forall E s ws, good_state s -> errs s = [] -> resid s = [] -> Forall (worker_args s) ws -> separate ws ->
  exists enough : nat -> nat, forall schedule, exists P,
  pool_run schedule (pool_start s (map (worker_proc E) ws)) = Some P /\
  (forall i w, nth_error ws i = Some w -> (enough i <= turns schedule i)%nat ->
   exists r s', calls_seq E (w_alg w) (w_ctx w) (w_calls w) [] s = Done r s' /\
   nth_error (threads P) i = Some (mk_thread (Return r) (errs s') (resid s')) /\
   forall q, In q (uses w) -> nth_error (shared P) q = nth_error (mem s') q) /\
  (forall q, (forall w, In w ws -> ~ In q (writes w)) -> nth_error (shared P) q = nth_error (mem s) q) /\
  length (shared P) = length (mem s) /\ p_tries P = tries s.
Proof.
  intros E s ws G Er Re Wa Se. rewrite Forall_forall in Wa.
  destruct (one_for_each _ (fun _ w n => exists r s', calls_seq E (w_alg w) (w_ctx w) (w_calls w) [] s = Done r s' /\
     (forall k, (n <= k)%nat -> alone k (worker_proc E w) s = Some (Return r, s')) /\ (forall k, alone k (worker_proc E w) s <> None)) ws) as (enough & En).
  { intros i w H. destruct (works_defined E s w G (Wa w (nth_error_In _ _ H))) as (r & s' & Q & R). destruct (alone_ends _ _ _ _ _ R) as (n & N1 & N2). exists n, r, s'. auto. }
  set (wr := fun i => match nth_error ws i with Some w => writes w | None => [] end).
  set (fp := fun i => match nth_error ws i with Some w => uses w | None => [] end).
  set (ms := map (worker_proc E) ws). assert (Lm : length ms = length ws) by apply map_length.
  assert (Nm : forall i m, nth_error ms i = Some m -> exists w, nth_error ws i = Some w /\ m = worker_proc E w).
  { intros i m H. unfold ms in H. rewrite nth_error_map in H. destruct (nth_error ws i) as [w|]; [|discriminate]. exists w. cbn in H. split; [reflexivity|congruence]. }
  assert (X1 : forall i, incl (wr i) (fp i)) by (intros i; unfold wr, fp; destruct (nth_error ws i); [apply writes_uses|intros ? []]).
  assert (X2 : forall i j q, (i < length ms)%nat -> (j < length ms)%nat -> i <> j -> In q (wr i) -> ~ In q (fp j)).
  { intros i j q Li Lj D. unfold wr, fp. destruct (nth_error ws i) as [u|] eqn:Hu; [|intros []]. destruct (nth_error ws j) as [v|] eqn:Hv; [|intros _ []]. now apply (Se i j). }
  assert (X3 : forall i m k, nth_error ms i = Some m -> alone k m s <> None).
  { intros i m k H. destruct (Nm i m H) as (w & Hw & ->). destruct (En i w Hw) as (r & s' & _ & _ & D). apply D. }
  assert (X4 : forall i m, nth_error ms i = Some m -> plocal (wr i) (fp i) m).
  { intros i m H. destruct (Nm i m H) as (w & Hw & ->). unfold wr, fp, worker_proc. rewrite Hw. apply plocal_calls; [apply writes_uses|now left|apply within]. }
  exists enough. intros schedule. pose proof (together_start wr fp s ms X4 Er Re) as T0.
  destruct (together_run wr fp s ms X2 X3 schedule _ _ T0) as (P & R & [T1 T2 T3 T4 T5]). exists P. split; [exact R|]. split; [|split; [|split; [exact T4|exact T3]]].
  - intros i w Hw Hi. destruct (En i w Hw) as (r & s' & Q & D & _). exists r, s'. split; [exact Q|].
    assert (Hm : nth_error ms i = Some (worker_proc E w)) by (unfold ms; rewrite nth_error_map, Hw; reflexivity).
    destruct (nth_error (threads P) i) as [t|] eqn:Ht.
    2:{ apply nth_error_None in Ht. assert (i < length ms)%nat by (apply nth_error_Some; congruence). lia. }
    destruct (T2 i _ t Hm Ht) as (st & Al & (A1 & A2 & A3) & _). cbn in Al. unfold turns in Hi. rewrite D in Al by exact Hi. injection Al as X Y. subst st. cbn in A2, A3. split.
    + f_equal. destruct t as [td te tr]. cbn in *. now subst.
    + intros q Hq. apply (A1 q). unfold fp. now rewrite Hw.
  - intros q Hq. apply T5. intros i _. unfold wr. destruct (nth_error ws i) as [w|] eqn:Hw; [|intros []]. apply Hq. exact (nth_error_In _ _ Hw).
Qed.

(* ------------------------------------------------------- digests *)

Lemma put_reads : forall l o d, (N.to_nat o + length d <= length l)%nat -> firstn (length d) (skipn (N.to_nat o) (put l o d)) = d.
Proof.
  intros l o d H. unfold put. rewrite skipn_app, skipn_all2 by (rewrite firstn_length; lia). rewrite firstn_length, Nat.min_l by lia.
  rewrite Nat.sub_diag. cbn [skipn app]. rewrite firstn_app, Nat.sub_diag, firstn_all. cbn [firstn]. apply app_nil_r.
Qed.

Lemma hashing_from : forall E a p h pieces c m s rs, good_state s -> get_obj s p = Some (OCtx a c) -> ctx_repr a (a_iv (alg_of a)) 0 c m ->
  Forall (fun x => accessible s (fst x) (snd x) /\ snd x <= ssize_max E) pieces -> accessible s h (digest_size a) ->
  exists s', calls_seq E a p (w_calls (hashing a p pieces h)) rs s = Done (repeat 1%Z (S (length pieces)) ++ rs) s' /\
  bytes_at s' h (digest_size a) = lib_hash a (m ++ message s pieces) /\ errs s' = errs s.
Proof.
  intros E a p h pieces. induction pieces as [|[b n] pieces IH]; intros c m s rs G C R F H; unfold hashing; cbn [w_calls map app calls_seq call_seq].
  - destruct (finalize_full E false a (Some p) (Some h) (digest_size a) true s G) as (r & s' & Q & K); [now exists c|exact H|].
    assert (SM : digest_size a <= ssize_max E) by (unfold ssize_max; destruct (plat64 E), a; vm_compute; discriminate).
    destruct K as [(-> & _ & q & hp & c' & hl & f & Qq & Qh & Gc & Gl & _ & D & ->)|(-> & [X|[X|[X|X]]] & _)]; [|discriminate|discriminate|lia|lia].
    injection Qq as <-. injection Qh as <-. rewrite C in Gc. injection Gc as <-. cbn [do_finalize] in Q.
    eexists. split; [erewrite bind_done by exact Q; reflexivity|]. destruct H as (l' & L1 & L2). rewrite Gl in L1. injection L1 as <-.
    pose proof (re_wf _ _ _ _ _ R) as W. pose proof (digest_fn_length a c W) as DL. rewrite <- digest_size_eq in DL. split.
    + unfold bytes_at. match goal with |- context [get_obj (add_frames ?f ?s) ?q] => change (get_obj (add_frames f s) q) with (get_obj s q) end.
      rewrite get_set_other by exact D. rewrite (get_set_same _ _ _ _ Gl). cbn [message map concat]. rewrite app_nil_r.
      rewrite <- DL, put_reads by lia. rewrite (digest_repr _ _ _ _ _ R). exact (cdig_lib a m).
    + cbn [errs add_frames]. now rewrite !set_obj_errs.
  - apply Forall_cons_iff in F. destruct F as ((Fb & Fn) & F). cbn [fst snd] in *.
    destruct (update_full E false a (Some p) (Some b) n true s G) as (r & s' & Q & K); [now exists c|exact Fb|]. cbn [do_update] in Q.
    destruct K as [(-> & _ & q & bp & c' & fs & Qq & Qb & Gc & _ & ->)|(-> & [X|[X|X]] & _)]; [|discriminate|discriminate|lia].
    injection Qq as <-. injection Qb as <-. rewrite C in Gc. injection Gc as <-. set (d := bytes_at s b n) in *.
    assert (Bd : Forall is_byte d) by (now apply bytes_bytes). pose proof (update_repr _ _ _ _ _ _ R Bd) as R1.
    set (s1 := add_frames fs (set_obj p (OCtx a (update_fn a c d)) s)) in *.
    assert (C1 : get_obj s1 p = Some (OCtx a (update_fn a c d))) by exact (get_set_same _ _ _ _ C).
    assert (G1 : good_state s1) by (apply good_frames, good_set; [exact G|]; apply good_ctx_wf; exact (re_wf _ _ _ _ _ R1)).
    assert (Sm : forall x k, accessible s x k -> nth_error (mem s1) (fst x) = nth_error (mem s) (fst x)).
    { intros x k (l & L & _). apply set_nth_other. intros ->. congruence. }
    destruct (IH (update_fn a c d) (m ++ d) s1 (1%Z :: rs) G1 C1 R1) as (s2 & Q2 & V & Er).
    + eapply Forall_impl; [|exact F]. intros x (X & Y). split; [|exact Y]. eapply accessible_same; [|exact X]. exact (Sm _ _ X).
    + eapply accessible_same; [|exact H]. exact (Sm _ _ H).
    + exists s2. split; [|split].
      * erewrite bind_done by exact Q. unfold hashing in Q2. cbn [w_calls] in Q2. rewrite Q2. f_equal.
        change (1%Z :: rs) with ([1%Z] ++ rs). rewrite app_assoc. f_equal. cbn [length]. change [1%Z] with (repeat 1%Z 1). rewrite <- repeat_app. f_equal. lia.
      * rewrite V. f_equal. rewrite <- app_assoc. f_equal. unfold message at 2. cbn [map concat fst snd]. fold (message s pieces). f_equal.
        unfold message. f_equal. apply map_ext_in. intros x X. rewrite Forall_forall in F. destruct (F x X) as (Y & _). apply bytes_same. exact (Sm _ _ Y).
      * rewrite Er. unfold s1. cbn [errs add_frames]. apply set_obj_errs.
Qed.

Lemma fresh_init : forall a c, fresh a c -> c = init_ctx a.
Proof.
  intros a c (E & s & e & p & s' & R & C). destruct (initialize_full E false a (Some None) e s) as (r & v & s1 & Q & K). cbn [do_initialize] in Q.
  rewrite R in Q. injection Q as <- <- <-. destruct K as [(_ & _ & _ & V & ->)|(X & _)]; [|discriminate]. injection V as ->.
  change (get_obj (new_cell Heap (OCtx a (init_ctx a)) s) (length (mem s)) = Some (OCtx a c)) in C. rewrite get_new in C. congruence.
Qed.

Lemma job_args : forall E s j, job_ok E s j -> worker_args s (job_worker j).
Proof.
  intros E s [[[a p] pieces] h] ((c & C & _) & F & H). split; cbn [job_worker hashing w_alg w_ctx w_calls]; [now exists c|].
  apply Forall_app. split; [|constructor; [exact H|constructor]]. apply Forall_forall. intros x X. apply in_map_iff in X. destruct X as (y & <- & Y).
  rewrite Forall_forall in F. exact (proj1 (F y Y)).
Qed.
Lemma separate_digests : forall E s js, good_state s -> errs s = [] -> resid s = [] -> Forall (job_ok E s) js -> separate (map job_worker js) ->
  exists enough : nat -> nat, forall schedule, exists P,
  pool_run schedule (pool_start s (map (worker_proc E) (map job_worker js))) = Some P /\
  forall i j, nth_error js i = Some j -> (enough i <= turns schedule i)%nat -> job_done s P i j.
Proof.
  intros E s js G Er Re F Se. assert (Wa : Forall (worker_args s) (map job_worker js)).
  { apply Forall_forall. intros w W. apply in_map_iff in W. destruct W as (j & <- & J). rewrite Forall_forall in F. apply (job_args E), F, J. }
  destruct (separate_threads E s _ G Er Re Wa Se) as (enough & En). exists enough. intros schedule. destruct (En schedule) as (P & R & D & _). exists P. split; [exact R|].
  intros i j J N. assert (Hw : nth_error (map job_worker js) i = Some (job_worker j)) by (rewrite nth_error_map, J; reflexivity).
  destruct (D i _ Hw N) as (r & s' & Q & T & U). rewrite Forall_forall in F. pose proof (F j (nth_error_In _ _ J)) as O.
  destruct j as [[[a p] pieces] h]. cbn [job_worker job_ok job_done] in *. destruct O as ((c & C & Fr) & Fp & H). apply fresh_init in Fr. subst c.
  destruct (hashing_from E a p h pieces _ [] s [] G C (init_repr a) Fp H) as (s2 & Q2 & V & _).
  cbn [w_alg w_ctx hashing] in Q, Q2. rewrite Q in Q2. injection Q2 as -> <-. rewrite app_nil_r in T. split; [eexists; split; [exact T|reflexivity]|].
  cbn [app] in V. rewrite <- V. apply bytes_same. cbn [mem]. apply U. right. apply in_flat_map. eexists. split; [apply in_or_app; right; now left|]. now left.
Qed.

(* ------------------------------------------------------- one context for several threads *)

Definition shared_bytes : list N := 1 :: 2 :: repeat 3 125.
(* an array of 127 bytes and a context that was just initialized *)
Definition shared_state (a : algid) : state :=
  mk_state [mk_cell true Heap (OBytes shared_bytes); mk_cell true Heap (OCtx a (init_ctx a))] 0 [] [].
Lemma init_fresh : forall a, fresh a (init_ctx a).
Proof.
  intros a. set (E := mk_env true true (fun _ => true) (fun _ _ => 0) (fun _ _ => 0)). exists E, (mk_state [] 0 [] []), false.
  destruct (initialize_full E false a (Some None) false (mk_state [] 0 [] [])) as (r & v & s & R & K).
  destruct K as [(-> & _ & _ & -> & ->)|(_ & [X|[(q & X)|(_ & X)]] & _)]; [|discriminate|discriminate|discriminate]. exists 0%nat. eexists. split; [exact R|reflexivity].
Qed.
Lemma shared_good : forall a, good_state (shared_state a).
Proof.
  intros a [|[|p]] o H; [| |destruct p; discriminate].
  - injection H as <-. apply Forall_forall. intros x X. destruct X as [<-|[<-|X]]; [reflexivity|reflexivity|]. apply repeat_spec in X. subst x. reflexivity.
  - injection H as <-. apply good_ctx_wf, init_wf.
Qed.

Definition lost_calls : list tcall := [TUpdate (Some (0%nat, 0)) 1; TUpdate (Some (0%nat, 1)) 1].
Definition lost_schedule : list nat := [1; 0; 0; 0; 0; 0; 0; 1; 1; 1; 1; 1]%nat.
Lemma lost_run : forall E a, exists P, pool_run lost_schedule (pool_start (shared_state a) (map (fun x => calls_proc E a 1 [x] []) lost_calls)) = Some P /\
  map todo (threads P) = [Return [1%Z]; Return [1%Z]] /\
  nth_error (shared P) 1 = Some (mk_cell true Heap (OCtx a (update_fn a (init_ctx a) [2]))).
Proof. intros [u p al j sj] a. destruct u, p, a; eexists; (split; [vm_compute; reflexivity|]); split; reflexivity. Qed.
Lemma lost_seq : forall E a, exists s s',
  calls_seq E a 1 lost_calls [] (shared_state a) = Done [1%Z; 1%Z] s /\ calls_seq E a 1 (rev lost_calls) [] (shared_state a) = Done [1%Z; 1%Z] s' /\
  nth_error (mem s) 1 = Some (mk_cell true Heap (OCtx a (update_fn a (init_ctx a) [1; 2]))) /\
  nth_error (mem s') 1 = Some (mk_cell true Heap (OCtx a (update_fn a (init_ctx a) [2; 1]))).
Proof. intros [u p al j sj] a. destruct u, p, a; do 2 eexists; (split; [vm_compute; reflexivity|]); (split; [vm_compute; reflexivity|]); split; reflexivity. Qed.
Lemma lost_update : forall E a, ~ as_if_sequential E (shared_state a) a 1 lost_calls.
Proof.
  intros E a H. destruct (lost_run E a) as (P & R & T & C). destruct (lost_seq E a) as (s & s' & Q & Q' & D & D').
  destruct (H _ P R) as (order & ND & IO & rs & s1 & Q1 & C1).
  { intros i L. exists [1%Z]. unfold returned. destruct (threads P) as [|t0 [|t1 [|]]]; try discriminate T. cbn in T. injection T as T0 T1.
    destruct i as [|[|i]]; [exists t0; now split|exists t1; now split|cbn in L; lia]. }
  assert (O : order = [0; 1]%nat \/ order = [1; 0]%nat).
  { pose proof (proj2 (IO 0%nat)) as I0. pose proof (proj2 (IO 1%nat)) as I1. specialize (I0 ltac:(cbn; lia)). specialize (I1 ltac:(cbn; lia)).
    destruct order as [|x [|y [|z l]]]; [contradiction| | |].
    - destruct I0 as [->|[]]. destruct I1 as [X|[]]. discriminate.
    - destruct I0 as [->|[->|[]]]; destruct I1 as [X|[X|[]]]; try discriminate; subst; auto.
    - exfalso. assert (L : forall w, In w (x :: y :: z :: l) -> w = 0%nat \/ w = 1%nat) by (intros w W; apply IO in W; cbn in W; lia).
      apply NoDup_cons_iff in ND. destruct ND as (N1 & ND). apply NoDup_cons_iff in ND. destruct ND as (N2 & _).
      pose proof (L x (or_introl eq_refl)). pose proof (L y (or_intror (or_introl eq_refl))). pose proof (L z (or_intror (or_intror (or_introl eq_refl)))).
      cbn in N1, N2. intuition congruence. }
  destruct O as [-> | ->]; cbn [flat_map nth_error lost_calls app] in Q1.
  - unfold lost_calls in Q. rewrite Q in Q1. injection Q1 as _ <-. rewrite C, D in C1. clear - C1. destruct a; vm_compute in C1; discriminate C1.
  - unfold lost_calls in Q'. cbn [rev app] in Q'. rewrite Q' in Q1. injection Q1 as _ <-. rewrite C, D' in C1. clear - C1. destruct a; vm_compute in C1; discriminate C1.
Qed.

Definition overflow_workers (a : algid) : list worker :=
  [mk_worker a 1 [TUpdate (Some (0%nat, 0)) 1; TUpdate (Some (0%nat, 0)) (block_size a - 1)];
   mk_worker a 1 [TUpdate (Some (0%nat, 0)) (block_size a - 1)]; mk_worker a 1 [TUpdate (Some (0%nat, 0)) (block_size a - 1)]].
Definition overflow_schedule : list nat :=
  [0; 0; 0; 0; 0; 0;  0; 0; 0;  1; 1; 1;  2; 2; 2;  0; 0; 0; 0;  1; 1; 1; 1;  2; 2]%nat.
Lemma overflow_run : forall E a, pool_run overflow_schedule (pool_start (shared_state a) (map (worker_proc E) (overflow_workers a))) = None.
Proof. intros [u p al j sj] a. destruct u, p, a; vm_compute; reflexivity. Qed.
Lemma overflow_args : forall a, Forall (worker_args (shared_state a)) (overflow_workers a).
Proof.
  intros a. assert (B : block_size a <= 128) by (destruct a; vm_compute; discriminate).
  assert (X : forall n, n <= 127 -> arg (shared_state a) (Some (0%nat, 0)) n) by (intros n N; exists shared_bytes; split; [reflexivity|exact N]).
  assert (C : exists c, get_obj (shared_state a) 1 = Some (OCtx a c)) by (eexists; reflexivity).
  unfold overflow_workers. repeat constructor; cbn [w_ctx w_alg w_calls call_arg]; first [exact C|apply X; lia].
Qed.
Lemma shared_context : forall E a, exists s p x y,
  good_state s /\ (exists c, get_obj s p = Some (OCtx a c) /\ fresh a c) /\ call_arg s x /\ call_arg s y /\ ~ as_if_sequential E s a p [x; y].
Proof.
  intros E a. exists (shared_state a), 1%nat, (TUpdate (Some (0%nat, 0)) 1), (TUpdate (Some (0%nat, 1)) 1). split; [apply shared_good|].
  split; [exists (init_ctx a); split; [reflexivity|apply init_fresh]|]. split; [|split; [|apply lost_update]]; exists shared_bytes; (split; [reflexivity|vm_compute; discriminate]).
Qed.
Lemma lost_byte : forall E a, exists s p b b' schedule P c,
  good_state s /\ get_obj s p = Some (OCtx a c) /\ fresh a c /\ bytes_at s b 1 = [1] /\ bytes_at s b' 1 = [2] /\
  pool_run schedule (pool_start s (map (fun x => calls_proc E a p [x] []) [TUpdate (Some b) 1; TUpdate (Some b') 1])) = Some P /\
  returned P 0 [1%Z] /\ returned P 1 [1%Z] /\
  exists s', context_update E a (Some p) (Some b') 1 true s = Done 1%Z s' /\ nth_error (shared P) p = nth_error (mem s') p.
Proof.
  intros E a. destruct (lost_run E a) as (P & R & T & C). exists (shared_state a), 1%nat, (0%nat, 0), (0%nat, 1), lost_schedule, P, (init_ctx a).
  split; [apply shared_good|]. split; [reflexivity|]. split; [apply init_fresh|]. split; [reflexivity|]. split; [reflexivity|]. split; [exact R|].
  destruct (threads P) as [|t0 [|t1 [|]]] eqn:Th; try discriminate T. cbn in T. injection T as T0 T1. unfold returned. rewrite Th.
  split; [now exists t0|]. split; [now exists t1|].
  destruct (update_full E false a (Some 1%nat) (Some (0%nat, 1)) 1 true (shared_state a) (shared_good a)) as (r & s' & Q & K); [eexists; reflexivity|exists shared_bytes; split; [reflexivity|vm_compute; discriminate]|].
  destruct K as [(-> & _ & q & bp & c & fs & Qq & Qb & Gc & _ & ->)|(_ & [X|[X|X]] & _)]; [|discriminate|discriminate|].
  - injection Qq as <-. injection Qb as <-. injection Gc as <-. eexists. split; [exact Q|]. rewrite C. reflexivity.
  - exfalso. unfold ssize_max in X. destruct (plat64 E); vm_compute in X; discriminate.
Qed.
Lemma overflow : forall E a, exists s p ws schedule,
  good_state s /\ (exists c, get_obj s p = Some (OCtx a c) /\ fresh a c) /\ Forall (worker_args s) ws /\
  Forall (fun w => w_alg w = a /\ w_ctx w = p) ws /\
  pool_run schedule (pool_start s (map (worker_proc E) ws)) = None.
Proof.
  intros E a. exists (shared_state a), 1%nat, (overflow_workers a), overflow_schedule. split; [apply shared_good|].
  split; [exists (init_ctx a); split; [reflexivity|apply init_fresh]|]. split; [apply overflow_args|]. split; [repeat constructor|apply overflow_run].
Qed.
