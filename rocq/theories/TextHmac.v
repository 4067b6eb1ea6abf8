(* The text of libhmac_X_calculate_hmac does what Hash.v says. *)
From Coq Require Import Arith NArith ZArith List Lia Bool String.
From Verif Require Import Words Spec Machine Context Hash CText TextMd5 TextSha1 TextSha224 TextSha256 TextSha512 TextAll.
From Verif Require Import Vocab MachineFacts TransformFacts ContextFacts DigestFacts HashFacts HmacFacts WordFacts TextFacts TextContext TextUpdate
  TextLoops TextTransform TextFinalize TextSteps TextHash.
Import ListNotations.
Open Scope string_scope.
Open Scope list_scope.
Open Scope N_scope.

(* ------------------------------------------------------------- calls of the functions of memory.h *)

Lemma filled : forall E P call fuel T es l p x b n X (K : flow -> locals -> M T) s,
  evs E P call es l s = Done ([VBytes p; x; VU RSz n], l) s -> to_unsigned E R8 x = Some b ->
  @den E P call fuel T (SIf (EBin OEq (ECall "memory_set" es) ENull) X SSkip) l K s = (mset p b n ;;; K FNext l) s.
Proof.
  intros E P call fuel T es l p x b n X K s H1 H2. rewrite den_if, ev_bin_eq, ev_call_eq. unfold bind. rewrite H1.
  cbn [fst snd is_external existsb String.eqb Ascii.eqb Bool.eqb orb external]. unfold bind, lift. rewrite H2. unfold ret.
  destruct (mset p b n s) as [[] s1|]; reflexivity.
Qed.
Lemma filled_plain : forall E P call fuel T es l p x b n (K : flow -> locals -> M T) s,
  evs E P call es l s = Done ([VBytes p; x; VU RSz n], l) s -> to_unsigned E R8 x = Some b ->
  @den E P call fuel T (SExpr (ECall "memory_set" es)) l K s = (mset p b n ;;; K FNext l) s.
Proof.
  intros E P call fuel T es l p x b n K s H1 H2. rewrite den_expr, ev_call_eq. unfold bind. rewrite H1.
  cbn [fst snd is_external existsb String.eqb Ascii.eqb Bool.eqb orb external]. unfold bind, lift. rewrite H2. unfold ret.
  destruct (mset p b n s) as [[] s1|]; reflexivity.
Qed.
Lemma ext_copy_bytes : forall E P p q x n l s, to_unsigned E RSz x = Some n ->
  external E P "memory_copy" [VBytes p; VBytes q; x] l s = (mcopy p q n ;;; ret (VBytes p, l)) s.
Proof.
  intros E P p q x n l s H. cbn [external String.eqb Ascii.eqb Bool.eqb].
  destruct x as [[]| | | | | | | | | | | | | | | |]; unfold bind, lift; rewrite H; reflexivity.
Qed.
Lemma copied : forall E P call fuel T es l p q x n X (K : flow -> locals -> M T) s,
  evs E P call es l s = Done ([VBytes p; VBytes q; x], l) s -> to_unsigned E RSz x = Some n ->
  @den E P call fuel T (SIf (EBin OEq (ECall "memory_copy" es) ENull) X SSkip) l K s = (mcopy p q n ;;; K FNext l) s.
Proof.
  intros E P call fuel T es l p q x n X K s H1 H2. rewrite den_if, ev_bin_eq, ev_call_eq. unfold bind. rewrite H1.
  cbn [fst snd is_external existsb String.eqb Ascii.eqb Bool.eqb orb]. rewrite (ext_copy_bytes _ _ _ _ _ _ _ _ H2). unfold bind, ret.
  destruct (mcopy p q n s) as [[] s1|]; reflexivity.
Qed.
Lemma freed : forall E P call fuel T es l p (K : flow -> locals -> M T) s,
  evs E P call es l s = Done ([VBytes (p, 0)], l) s ->
  @den E P call fuel T (SExpr (ECall "memory_free" es)) l K s = (mfree p ;;; K FNext l) s.
Proof.
  intros E P call fuel T es l p K s H1. rewrite den_expr, ev_call_eq. unfold bind. rewrite H1.
  cbn [fst snd is_external existsb String.eqb Ascii.eqb Bool.eqb orb external N.eqb]. unfold bind, ret.
  destruct (mfree p s) as [[] s1|]; reflexivity.
Qed.

Definition v_mem (q : option nat) : val := v_bytes (option_map (fun p => (p, 0)) q).
Lemma null_mem : forall q, is_null (v_mem q) = Some (match q with Some _ => false | None => true end).
Proof. intros []; reflexivity. Qed.
Lemma not_arr_mem : forall q, is_arr (v_mem q) = false.
Proof. intros []; reflexivity. Qed.

Lemma allotted : forall E P call fuel T x es l n v (lr : option nat -> locals) (K : flow -> locals -> M T) s,
  evs E P call es l s = Done ([VU RSz n], l) s -> lget l x = Some (v_mem v) ->
  (forall q, lset l x (v_mem q) = Some (lr q)) ->
  @den E P call fuel T (SAssign (EVar x) (ECall "memory_allocate" es)) l K s = (q <- allocate_bytes E n ;; K FNext (lr q)) s.
Proof.
  intros E P call fuel T x es l n v lr K s H1 H2 H3. rewrite den_assign, ev_call_eq. unfold bind. rewrite H1.
  cbn [fst snd is_external existsb String.eqb Ascii.eqb Bool.eqb orb external]. unfold bind, ret.
  destruct (allocate_bytes E n s) as [q s1|]; [|reflexivity]. cbn [fst snd assign]. rewrite H2.
  specialize (H3 q). destruct v as [v|]; destruct q as [q|]; cbn [v_mem option_map v_bytes is_null] in *; unfold bind, lift, ret; rewrite H3; reflexivity.
Qed.

(* x = NULL; *)
Lemma emptied : forall E P call fuel T x l v l' (K : flow -> locals -> M T) s,
  lget l x = Some (v_mem v) -> lset l x (v_mem None) = Some l' ->
  @den E P call fuel T (SAssign (EVar x) ENull) l K s = K FNext l' s.
Proof.
  intros E P call fuel T x l v l' K s H1 H2. rewrite den_assign. cbn [eval]. unfold ret. cbn [fst snd assign]. rewrite H1.
  destruct v as [v|]; cbn [v_mem option_map v_bytes is_null] in *; unfold bind, lift, ret; rewrite H2; reflexivity.
Qed.

(* ------------------------------------------------------------- what they leave alone *)

Lemma write_keeps : forall p d s s1, wf_state s -> Forall is_byte d -> write p d s = Done tt s1 -> keeps s s1.
Proof.
  intros p d s s1 W D H. unfold write in H. destruct (get_obj s (fst p)) as [[l| |]|] eqn:G; try discriminate.
  assert (L : snd p + N.of_nat (List.length d) <= N.of_nat (List.length l)).
  { unfold splice in H. destruct (N.leb_spec (snd p + N.of_nat (List.length d)) (N.of_nat (List.length l))); [assumption|discriminate]. }
  pose proof (write_ok s p l d G L) as Q. unfold write in Q. rewrite G in Q. pose proof (eq_trans (eq_sym Q) H) as Q'. injection Q' as <-.
  split.
  - apply set_wf; [exact W|]. apply Forall_put; [exact (W _ _ G)|exact D].
  - intros n. eapply set_stays; [exact G| |discriminate]. intros l0 H0. injection H0 as <-. eexists. split; [reflexivity|].
    apply put_length. lia.
Qed.
Lemma mset_keeps : forall p v n s s1, wf_state s -> v < 256 -> mset p v n s = Done tt s1 -> keeps s s1.
Proof. intros p v n s s1 W V H. apply (write_keeps _ _ _ _ W) in H; [exact H|]. apply Forall_forall. intros x Hx. apply repeat_spec in Hx. subst. exact V. Qed.
Lemma view_inv : forall p s v s1, wf_state s -> view p s = Done v s1 -> s1 = s /\ Forall is_byte v.
Proof.
  intros p s v s1 W H. unfold view in H. destruct (get_obj s (fst p)) as [[l| |]|] eqn:G; try discriminate.
  destruct (snd p <=? N.of_nat (List.length l)); [|discriminate]. injection H as <- <-. split; [reflexivity|]. apply Forall_skipn. exact (W _ _ G).
Qed.
Lemma mcopy_keeps : forall p q n s s1, wf_state s -> mcopy p q n s = Done tt s1 -> keeps s s1.
Proof.
  intros p q n s s1 W H. unfold mcopy in H. destruct (disjoint_ranges p q n); [|discriminate].
  unfold bind in H. destruct (view q s) as [v s2|] eqn:V; [|discriminate]. destruct (view_inv _ _ _ _ W V) as (-> & B).
  unfold lift, ret in H. destruct (take n v) as [x|] eqn:Tk; [|discriminate].
  apply (write_keeps p x); [exact W| |exact H]. unfold take in Tk. destruct (n <=? N.of_nat (List.length v)); [|discriminate].
  injection Tk as <-. now apply Forall_firstn.
Qed.
Lemma read_inv : forall p s x s1, wf_state s -> read_byte p s = Done x s1 -> s1 = s /\ x < 256.
Proof.
  intros p s x s1 W H. unfold read_byte, bind in H. destruct (view p s) as [v s2|] eqn:V; [|discriminate].
  destruct (view_inv _ _ _ _ W V) as (-> & B). unfold lift, ret in H. destruct v as [|y v]; [discriminate|].
  cbn [nth_error] in H. injection H as <- <-. split; [reflexivity|]. inversion B; assumption.
Qed.
Lemma allocate_keeps : forall E n s q s1, wf_state s -> allocate_bytes E n s = Done q s1 ->
  wf_state s1 /\ stays (List.length (mem s)) s s1 /\
  match q with Some p => p = List.length (mem s) /\ (p < List.length (mem s1))%nat /\ accessible s1 (p, 0) n | None => True end.
Proof.
  intros E n s q s1 W H. unfold allocate_bytes, allocate in H. destruct (alloc_ok E (tries s)); injection H as <- <-; cbn [mem].
  - split; [|split; [|split; [reflexivity|split]]].
    + apply wf_cells. cbn [mem]. apply Forall_app. split; [now apply wf_cells|]. constructor; [|constructor]. intros _. cbn [content obj_ok].
      apply Forall_forall. intros x Hx. unfold junk_bytes in Hx. apply in_map_iff in Hx as (j & <- & _). apply N.mod_lt. discriminate.
    + split; [cbn [mem]; rewrite app_length; lia|]. intros p Hp. unfold get_obj. cbn [mem]. rewrite nth_error_app1 by lia. split; intros; eauto.
    + rewrite app_length. cbn [List.length]. lia.
    + eexists. unfold get_obj. cbn [mem fst snd]. rewrite nth_error_app2, Nat.sub_diag by lia. split; [reflexivity|].
      unfold junk_bytes. rewrite map_length, seq_length. lia.
  - split; [now apply (wf_same s)|]. split; [now apply stays_same|exact I].
Qed.

(* ------------------------------------------------------------- the text *)

Definition hmac_def (a : algid) (u : bool) : fundef :=
  match a with
  | MD5 => text_libhmac_md5_calculate_hmac u | SHA1 => text_libhmac_sha1_calculate_hmac u
  | SHA224 => text_libhmac_sha224_calculate_hmac u | SHA256 => text_libhmac_sha256_calculate_hmac u
  | SHA512 => text_libhmac_sha512_calculate_hmac u
  end.

Notation fails d c := (SExpr (ECall "libcerror_error_set" [(EVar "error"); (EName d); (EName c)])).
Notation d_arguments := "LIBCERROR_ERROR_DOMAIN_ARGUMENTS".
Notation d_memory := "LIBCERROR_ERROR_DOMAIN_MEMORY".
Notation e_insufficient := "LIBCERROR_MEMORY_ERROR_INSUFFICIENT".
Notation fill args := (SIf (EBin OEq (ECall "memory_set" args) ENull) (fails d_memory "LIBCERROR_MEMORY_ERROR_SET_FAILED" ;- SGoto) SSkip).
Notation copy args := (SIf (EBin OEq (ECall "memory_copy" args) ENull) (fails d_memory "LIBCERROR_MEMORY_ERROR_COPY_FAILED" ;- SGoto) SSkip).
Notation allot x := (SAssign (EVar x) (ECall "memory_allocate" [(EBin OMul (ESize 1) (EVar "block_size"))])).
Notation need x := (SIf (EBin OEq (EVar x) ENull) (fails d_memory e_insufficient ;- SGoto) SSkip).

Definition pass_text (a : algid) (pad : string) (xb xn : expr) (rest : stmt) : stmt :=
  must (name_of a "context_initialize") [ERef "context"; EVar "error"] e_initialize ;-
  must (name_of a "context_update") [EVar "context"; EVar pad; EVar "block_size"; EVar "error"] e_set ;-
  must (name_of a "context_update") [EVar "context"; xb; xn; EVar "error"] e_set ;-
  must (name_of a "context_finalize") [EVar "context"; EVar "hmac"; EVar "hmac_size"; EVar "error"] e_finalize ;-
  must (name_of a "context_free") [ERef "context"; EVar "error"] e_finalize ;-
  rest.

Definition hs_of (a : algid) : Z := Z.of_N (a_hs (alg_of a)).

Definition key_text (a : algid) : stmt :=
  SIf (EBin OLe (EVar "key_size") (EVar "block_size")) (
    copy [EVar "key_data"; EVar "key"; EVar "key_size"] ;-
    fill [EAddr (EIndex (EVar "key_data") (EVar "key_size")); EInt 0; EBin OSub (EVar "block_size") (EVar "key_size")])
  (must (name_of a "context_initialize") [ERef "context"; EVar "error"] e_initialize ;-
   must (name_of a "context_update") [EVar "context"; EVar "key"; EVar "key_size"; EVar "error"] e_set ;-
   must (name_of a "context_finalize") [EVar "context"; EVar "key_hash"; EInt (hs_of a); EVar "error"] e_finalize ;-
   must (name_of a "context_free") [ERef "context"; EVar "error"] e_finalize ;-
   SIf (EBin OGt (EVar "block_size") (EInt (hs_of a)))
     (fill [EAddr (EIndex (EVar "key_data") (EInt (hs_of a))); EInt 0; EBin OSub (EVar "block_size") (EInt (hs_of a))]) SSkip ;-
   copy [EVar "key_data"; EVar "key_hash"; EInt (hs_of a)]).

Definition xor_one (x : string) : stmt :=
  SOp OXor (EIndex (EVar x) (EVar "block_index")) (EIndex (EVar "key_data") (EVar "block_index")).
Definition xor_text : stmt :=
  SFor (SAssign (EVar "block_index") (EInt 0)) (EBin OLt (EVar "block_index") (EVar "block_size")) (SOp OAdd (EVar "block_index") (EInt 1))
    (xor_one "inner_padding" ;- xor_one "outer_padding").

Definition end_text : stmt :=
  fill [EVar "outer_padding"; EInt 0; EVar "block_size"] ;-
  SExpr (ECall "memory_free" [EVar "outer_padding"]) ;-
  SAssign (EVar "outer_padding") ENull ;-
  fill [EVar "inner_padding"; EInt 0; EVar "block_size"] ;-
  SExpr (ECall "memory_free" [EVar "inner_padding"]) ;-
  SAssign (EVar "inner_padding") ENull ;-
  fill [EVar "key_data"; EInt 0; EVar "block_size"] ;-
  SExpr (ECall "memory_free" [EVar "key_data"]) ;-
  SAssign (EVar "key_data") ENull ;-
  SReturn (EInt 1).

Definition hmac_text (a : algid) : stmt :=
  SIf (EBin OEq (EVar "key") ENull)
    (fails d_arguments "LIBCERROR_ARGUMENT_ERROR_INVALID_VALUE" ;- SReturn (EInt (-1))) SSkip ;-
  SIf (EBin OGt (EVar "key_size") (ECast false RSz ESsizeMax))
    (fails d_arguments "LIBCERROR_ARGUMENT_ERROR_VALUE_EXCEEDS_MAXIMUM" ;- SReturn (EInt (-1))) SSkip ;-
  SIf (EBin OLt (EVar "hmac_size") (ECast false RSz (EInt (hs_of a))))
    (fails d_arguments "LIBCERROR_ARGUMENT_ERROR_VALUE_TOO_SMALL" ;- SReturn (EInt (-1))) SSkip ;-
  allot "key_data" ;- need "key_data" ;-
  key_text a ;-
  allot "inner_padding" ;- need "inner_padding" ;- fill [EVar "inner_padding"; EInt 54; EVar "block_size"] ;-
  allot "outer_padding" ;- need "outer_padding" ;- fill [EVar "outer_padding"; EInt 92; EVar "block_size"] ;-
  xor_text ;-
  pass_text a "inner_padding" (EVar "buffer") (EVar "size")
    (pass_text a "outer_padding" (EVar "hmac") (EInt (hs_of a)) end_text).

Definition discard (x : string) : stmt :=
  SIf (EBin ONe (EVar x) ENull)
    (SExpr (ECall "memory_set" [EVar x; EInt 0; EVar "block_size"]) ;- SExpr (ECall "memory_free" [EVar x])) SSkip.
Definition hmac_error (a : algid) : stmt :=
  SIf (EBin ONe (EVar "context") ENull) (SExpr (ECall (name_of a "context_free") [ERef "context"; ENull])) SSkip ;-
  discard "outer_padding" ;- discard "inner_padding" ;- discard "key_data" ;-
  SReturn (EInt (-1)).

Lemma hmac_eq : forall a u, f_body (hmac_def a u) = hmac_text a /\ f_error (hmac_def a u) = hmac_error a /\
  f_arrays (hmac_def a u) = [("key_hash", R8, N.to_nat (a_hs (alg_of a)))] /\ f_ret (hmac_def a u) = (true, R32) /\
  List.length (f_params (hmac_def a u)) = 7%nat.
Proof. intros [] []; repeat split; reflexivity. Qed.

(* ------------------------------------------------------------- sizes *)

Lemma lit_size : forall E n, n < 2 ^ 32 -> to_unsigned E RSz (VS R32 (Z.of_N n)) = Some n.
Proof.
  intros E n H. cbn [to_unsigned]. f_equal. rewrite Z.mod_small; [apply N2Z.id|]. split; [apply N2Z.is_nonneg|].
  change 2%Z with (Z.of_N 2). rewrite <- N2Z.inj_pow. apply N2Z.inj_lt. eapply N.lt_le_trans; [exact H|].
  cbn [bits]. destruct (plat64 E); [now apply N.pow_le_mono_r|apply N.le_refl].
Qed.
Lemma small_sizes : forall a, a_hs (alg_of a) < 2 ^ 32 /\ hmac_block_size a < 2 ^ 32 /\ a_hs (alg_of a) < hmac_block_size a /\
  hmac_block_size a <= 128.
Proof. intros []; repeat split; try reflexivity; discriminate. Qed.
Lemma size_32 : forall E n, n < 2 ^ 32 -> n < size_mod E.
Proof. intros E n H. unfold size_mod. destruct (plat64 E); [|exact H]. eapply N.lt_trans; [exact H|reflexivity]. Qed.
Lemma bits_size : forall E, 2 ^ bits E RSz = size_mod E.
Proof. intros E. unfold size_mod. cbn [bits]. destruct (plat64 E); reflexivity. Qed.

(* ------------------------------------------------------------- the loop *)

Lemma xor_wrap : forall E x k, x < 256 -> k < 256 ->
  to_unsigned E R8 (VS R32 (Z.lxor (Z.of_N x) (Z.of_N k))) = Some (N.lxor x k).
Proof.
  intros E x k Hx Hk. assert (Q : Z.lxor (Z.of_N x) (Z.of_N k) = Z.of_N (N.lxor x k)) by (destruct x, k; reflexivity).
  rewrite Q. cbn [to_unsigned]. f_equal. rewrite Z.mod_small; [apply N2Z.id|]. split; [apply N2Z.is_nonneg|].
  change (2 ^ Z.of_N (bits E R8))%Z with (Z.of_N 256). apply N2Z.inj_lt. change 256 with (2 ^ 8) in *. apply word_lxor; assumption.
Qed.

Lemma at_index : forall E P call x y p i l s, lget l x = Some (VBytes (p, 0)) -> lget l y = Some (VU RSz i) ->
  eval E P call (EIndex (EVar x) (EVar y)) l s = (n <- read_byte (p, i) ;; ret (VU R8 n, l)) s.
Proof.
  intros E P call x y p i l s H1 H2. cbn [eval]. rewrite H1. unfold bind, ret. cbn [fst snd]. rewrite H2.
  cbn [lift amount fst snd index]. unfold ret. cbn [load_at lift fst snd]. unfold ret, bind. change (ptr_add (p, 0) i) with (p, i).
  destruct (read_byte (p, i) s); reflexivity.
Qed.
Lemma to_index : forall E P call x y p i v n l s, lget l x = Some (VBytes (p, 0)) -> lget l y = Some (VU RSz i) ->
  to_unsigned E R8 v = Some n ->
  assign E P call (EIndex (EVar x) (EVar y)) v l s = (write_byte (p, i) n ;;; ret l) s.
Proof.
  intros E P call x y p i v n l s H1 H2 H3. cbn [assign eval]. rewrite H1. unfold bind, ret. cbn [fst snd]. rewrite H2.
  cbn [lift amount fst snd index store_at]. unfold ret. cbn [store_at lift fst snd]. unfold bind. rewrite H3. cbn [lift]. unfold ret.
  change (ptr_add (p, 0) i) with (p, i). reflexivity.
Qed.

Lemma xor_one_run : forall E P call fuel T x p kd i l (K : flow -> locals -> M T) s, wf_state s ->
  lget l x = Some (VBytes (p, 0)) -> lget l "key_data" = Some (VBytes (kd, 0)) -> lget l "block_index" = Some (VU RSz i) ->
  @den E P call fuel T (xor_one x) l K s =
  (x <- read_byte (p, i) ;; k <- read_byte (kd, i) ;; write_byte (p, i) (N.lxor x k) ;;; K FNext l) s.
Proof.
  intros E P call fuel T x p kd i l K s W H1 H2 H3. unfold xor_one. rewrite den_op.
  rewrite (at_index _ _ _ _ _ _ _ _ _ H1 H3). unfold bind at 1 2. destruct (read_byte (p, i) s) as [v s1|] eqn:R1; [|reflexivity].
  destruct (read_inv _ _ _ _ W R1) as (-> & V). unfold ret at 1. cbn [fst snd].
  rewrite (at_index _ _ _ _ _ _ _ _ _ H2 H3). unfold bind at 1 2. destruct (read_byte (kd, i) s) as [k s1|] eqn:R2; [|reflexivity].
  destruct (read_inv _ _ _ _ W R2) as (-> & Vk). unfold ret at 1. cbn [fst snd].
  change (binary E OXor (VU R8 v) (VU R8 k)) with (Some (VS R32 (Z.lxor (Z.of_N v) (Z.of_N k)))). cbv iota.
  rewrite (to_index _ _ _ _ _ _ _ _ _ _ _ H1 H3 (xor_wrap E v k V Vk)). unfold bind, ret.
  destruct (write_byte (p, i) (N.lxor v k) s) as [[] s1|]; reflexivity.
Qed.

Lemma xor_write_keeps : forall p i v k s s1, wf_state s -> v < 256 -> k < 256 ->
  write_byte (p, i) (N.lxor v k) s = Done tt s1 -> keeps s s1.
Proof.
  intros p i v k s s1 W V Vk H. apply (write_keeps _ _ _ _ W) in H; [exact H|]. constructor; [|constructor].
  unfold is_byte. change 256 with (2 ^ 8) in *. apply word_lxor; assumption.
Qed.

Lemma next_index : forall E P call fuel T l i l' (K : flow -> locals -> M T) s, i + 1 < size_mod E ->
  lget l "block_index" = Some (VU RSz i) -> lset l "block_index" (VU RSz (i + 1)) = Some l' ->
  @den E P call fuel T (SOp OAdd (EVar "block_index") (EInt 1)) l K s = K FNext l' s.
Proof.
  intros E P call fuel T l i l' K s Hi H1 H2. rewrite den_op. cbn [eval]. rewrite H1. unfold ret. cbn [fst snd].
  assert (B : binary E OAdd (VU RSz i) (VS R32 1) = Some (VU RSz (i + 1))).
  { cbn [binary usual promote]. change (rank_leb R32 RSz) with true. cbv iota.
    change 1%Z with (Z.of_N 1). rewrite lit_size by reflexivity. cbn [arith]. now rewrite uadd_size. }
  rewrite B. cbn [assign]. rewrite H1. unfold bind. cbn [to_unsigned rank_eqb lift]. unfold ret. rewrite H2. reflexivity.
Qed.

Section Loop.
  Variables (E : env) (P : program) (call : string -> list val -> M (val * list (option val))) (fuel : nat) (T : Type).
  Variables (ip op kd : nat) (bs : N) (L : N -> locals).
  Hypothesis Small : bs < 2 ^ 32.
  Hypothesis Hip : forall i, lget (L i) "inner_padding" = Some (VBytes (ip, 0)).
  Hypothesis Hop : forall i, lget (L i) "outer_padding" = Some (VBytes (op, 0)).
  Hypothesis Hkd : forall i, lget (L i) "key_data" = Some (VBytes (kd, 0)).
  Hypothesis Hbi : forall i, lget (L i) "block_index" = Some (VU RSz i).
  Hypothesis Hbs : forall i, lget (L i) "block_size" = Some (VU RSz bs).
  Hypothesis Hset : forall i j, lset (L i) "block_index" (VU RSz j) = Some (L j).
  Variables (K : flow -> locals -> M T) (R : M T).

  Lemma xor_more : forall i s, eval E P call (EBin OLt (EVar "block_index") (EVar "block_size")) (L i) s = Done (truth (i <? bs), L i) s.
  Proof.
    intros i s. rewrite ev_bin_eq. unfold bind. cbn [eval]. rewrite Hbi. unfold ret. cbn [fst snd]. rewrite Hbs. reflexivity.
  Qed.

  Lemma xor_loop : forall k n i s s0, wf_state s -> (forall n, stays n s0 s) ->
    (forall s1, keeps s0 s1 -> K FNext (L bs) s1 = R s1) -> (k <= n)%nat -> N.of_nat (i + k) = bs ->
    @dloop E P call fuel T n (EBin OLt (EVar "block_index") (EVar "block_size"))
      ((xor_one "inner_padding" ;- xor_one "outer_padding") ;- SOp OAdd (EVar "block_index") (EInt 1)) (L (N.of_nat i)) K s =
    (mfold (hmac_xor_step ip op kd) (seq i k) tt ;;; R) s.
  Proof.
    induction k as [|k IH]; intros n i s s0 W S0 HK Hn Hi.
    - rewrite Nat.add_0_r in Hi. rewrite dloop_end by (rewrite xor_more, Hi, N.ltb_irrefl; reflexivity).
      rewrite Hi. apply HK. split; assumption.
    - destruct n as [|n]; [lia|]. rewrite dloop_step by (rewrite xor_more; replace (N.of_nat i <? bs) with true by (symmetry; apply N.ltb_lt; lia); reflexivity).
      cbn [seq mfold]. unfold hmac_xor_step at 1. rewrite !den_seq. rewrite (xor_one_run _ _ _ _ _ _ ip kd (N.of_nat i)) by (trivial).
      rewrite ?bind_assoc. apply bind_ext. intros x s1 R1. destruct (read_inv _ _ _ _ W R1) as (-> & V). clear R1.
      rewrite ?bind_assoc. apply bind_ext. intros y s1 R1. destruct (read_inv _ _ _ _ W R1) as (-> & Vy). clear R1.
      rewrite ?bind_assoc. apply bind_ext. intros [] s1 R1. destruct (xor_write_keeps _ _ _ _ _ _ W V Vy R1) as (W1 & S1). clear R1.
      rewrite (xor_one_run _ _ _ _ _ _ op kd (N.of_nat i)) by (trivial).
      rewrite ?bind_assoc. apply bind_ext. intros x1 s2 R1. destruct (read_inv _ _ _ _ W1 R1) as (-> & V1). clear R1.
      rewrite ?bind_assoc. apply bind_ext. intros y1 s2 R1. destruct (read_inv _ _ _ _ W1 R1) as (-> & Vy1). clear R1.
      rewrite ?bind_assoc. apply bind_ext. intros [] s2 R1. destruct (xor_write_keeps _ _ _ _ _ _ W1 V1 Vy1 R1) as (W2 & S2). clear R1.
      rewrite (next_index _ _ _ _ _ _ (N.of_nat i) (L (N.of_nat (S i)))); [|apply size_32; lia|apply Hbi|].
      2: { rewrite Hset. do 2 f_equal. lia. }
      apply (IH n (S i) s2 s0); [exact W2| |exact HK|lia|lia].
      intros m. eapply stays_trans; [apply S0|]. eapply stays_trans; [apply S1|apply S2].
  Qed.

  Lemma xor_run : forall i s, wf_state s -> (N.to_nat bs <= fuel)%nat ->
    (forall s1, keeps s s1 -> K FNext (L bs) s1 = R s1) ->
    @den E P call fuel T xor_text (L i) K s = (hmac_xor ip op kd (N.to_nat bs) ;;; R) s.
  Proof.
    intros i s W Hf HK. unfold xor_text. rewrite den_for, den_assign. cbn [eval]. unfold ret. cbn [fst snd assign]. rewrite Hbi.
    unfold bind. change 0%Z with (Z.of_N 0). rewrite lit_size by reflexivity. cbn [lift]. unfold ret. rewrite Hset. cbn [lift]. unfold ret.
    change 0 with (N.of_nat 0). apply (xor_loop _ fuel 0 s s); [exact W|intros m; apply stays_refl|exact HK|exact Hf|lia].
  Qed.
End Loop.

(* ------------------------------------------------------------- the parts *)

Ltac hnarr := first [narr | apply not_arr_mem].
Ltac hv :=
  match goal with
  | |- evs _ _ _ [] _ _ = _ => apply evs_nil
  | |- evs _ _ _ (_ :: _) _ _ = _ => eapply evs_cons; [hv | hv]
  | |- eval _ _ _ (EVar _) _ _ = _ => eapply ev_var; [bypair | hnarr]
  | |- eval _ _ _ (ERef _) _ _ = _ => eapply ev_ref; [bypair | hnarr]
  | |- eval _ _ _ _ _ _ = _ => reflexivity
  end.

Lemma decided : forall E P call fuel T c t X Y l (K : flow -> locals -> M T) s,
  eval E P call c l s = Done (truth t, l) s ->
  @den E P call fuel T (SIf c X Y) l K s = if t then @den E P call fuel T X l K s else @den E P call fuel T Y l K s.
Proof. intros E P call fuel T c t X Y l K s H. rewrite den_if, H. cbn [fst snd]. rewrite test_truth. destruct t; reflexivity. Qed.

Lemma amount_hs : forall a, amount (VS R32 (hs_of a)) = Some (a_hs (alg_of a)).
Proof. intros []; reflexivity. Qed.

Lemma copy_none : forall x t o l, copy_out (x :: t) (None :: o) l = copy_out t o l.
Proof. intros x t o l. destruct x; reflexivity. Qed.

Section Hmac.
  Variables (E : env) (fuel d : nat) (a : algid).
  Variables (key : option ptr) (kn : N) (b : option ptr) (n : N) (h : option ptr) (hn : N) (e : bool) (kh : nat).

  Definition hl (c kd ip op : option nat) (i : N) : locals :=
    [("key", v_bytes key); ("key_size", VU RSz kn); ("buffer", v_bytes b); ("size", VU RSz n); ("hmac", v_bytes h);
     ("hmac_size", VU RSz hn); ("error", v_error e); ("key_hash", VBytes (kh, 0)); ("context", v_ctx a c); ("key_data", v_mem kd);
     ("inner_padding", v_mem ip); ("outer_padding", v_mem op); ("block_index", VU RSz i); ("block_size", VU RSz (hmac_block_size a))].

  Notation hs := (a_hs (alg_of a)).
  Notation bs := (hmac_block_size a).
  Notation dn := (in_text E a fuel (S d)).

  Hypothesis TT : transform_as_modelled E fuel d a.
  Hypothesis Fk : enough fuel kn.
  Hypothesis Fn : enough fuel n.
  Hypothesis F2 : enough fuel 256.
  Hypothesis Hkn : kn < size_mod E.
  Hypothesis Hn : n < size_mod E.
  Hypothesis Hhn : hn < size_mod E.

  Ltac failing K := rewrite den_seq; erewrite erred by reflexivity; rewrite ?bind_assoc; apply bind_ext; intros [] ? _; rewrite den_goto; reflexivity.

  Lemma update_called : forall p q v m s, to_unsigned E RSz v = Some m -> wf_state s -> enough fuel m -> m < size_mod E ->
    (exists c, get_obj s p = Some (OCtx a c)) -> (forall r, q = Some r -> accessible s r m) ->
    call_text E (text_of a (unrolled E)) fuel (S d) (name_of a "context_update") [v_ctx a (Some p); v_bytes q; v; v_error e] s =
    (r <- context_update E a (Some p) q m e ;; ret (VS R32 r, [None; None; None; None])) s.
  Proof.
    intros p q v m s Hv W F Hm G HB. rewrite <- text_update with (fuel := fuel) (d := d);
      [|exact TT|exact W|exact F|exact Hm|unfold enough in *; lia|intros r Hr; injection Hr as <-; exact G|intros r Hr _; now apply HB].
    assert (V : to_unsigned E RSz v = to_unsigned E RSz (VU RSz m)) by (rewrite Hv; reflexivity).
    clear TT. destruct a; (eapply call_converted; [reflexivity|reflexivity|exact V]).
  Qed.
  Lemma finalize_called : forall p q v m s, to_unsigned E RSz v = Some m -> wf_state s -> m < size_mod E ->
    (exists c, get_obj s p = Some (OCtx a c)) -> (forall r, q = Some r -> hs <= m -> accessible s r hs) ->
    call_text E (text_of a (unrolled E)) fuel (S d) (name_of a "context_finalize") [v_ctx a (Some p); v_bytes q; v; v_error e] s =
    (r <- context_finalize E a (Some p) q m e ;; ret (VS R32 r, [None; None; None; None])) s.
  Proof.
    intros p q v m s Hv W Hm G HB. rewrite <- text_finalize with (fuel := fuel) (d := d);
      [|exact TT|exact W|exact F2|exact Hm|intros r Hr; injection Hr as <-; exact G|intros r Hr H1 _; now apply HB].
    assert (V : to_unsigned E RSz v = to_unsigned E RSz (VU RSz m)) by (rewrite Hv; reflexivity).
    clear TT. destruct a; (eapply call_converted; [reflexivity|reflexivity|exact V]).
  Qed.

  (* initialize, feed the padding, feed a buffer, end, free *)
  Lemma pass_run : forall pad pp xb xn q v m kd ip op i rest K R s,
    (forall c s, eval E (text_of a (unrolled E)) (call_text E (text_of a (unrolled E)) fuel (S d)) (EVar pad) (hl c kd ip op i) s = Done (VBytes (pp, 0), hl c kd ip op i) s) ->
    (forall c s, eval E (text_of a (unrolled E)) (call_text E (text_of a (unrolled E)) fuel (S d)) xb (hl c kd ip op i) s = Done (v_bytes q, hl c kd ip op i) s) ->
    (forall c s, eval E (text_of a (unrolled E)) (call_text E (text_of a (unrolled E)) fuel (S d)) xn (hl c kd ip op i) s = Done (v, hl c kd ip op i) s) ->
    to_unsigned E RSz v = Some m -> enough fuel m -> m < size_mod E ->
    wf_state s -> accessible s (pp, 0) bs -> (forall r, q = Some r -> accessible s r m) -> (forall r, h = Some r -> hs <= hn -> accessible s r hs) ->
    (forall s1, wf_state s1 -> stays (List.length (mem s)) s s1 -> dn rest (hl None kd ip op i) K s1 = R s1) ->
    dn (pass_text a pad xb xn rest) (hl None kd ip op i) K s =
    (r <- hmac_pass E a pp q m h hn e ;; match r with Some c => K FError (hl c kd ip op i) | None => R end) s.
  Proof.
    intros pad pp xb xn q v m kd ip op i rest K R s X1 X2 X3 Hv Fm Hm W AP AB AH HR. unfold pass_text, hmac_pass.
    rewrite den_seq, bind_assoc.
    erewrite checked with (lr := fun r => hl (snd r) kd ip op i);
      [|unfold hl; hv|apply name_plain|apply (text_initialize E fuel d a (Some None) e)|intros r; reflexivity].
    apply bind_ext. intros r s1 Hr. destruct (initialize_keeps E a e s r s1 W Hr) as (W1 & S1 & Ok & _). clear Hr.
    destruct (fst r =? 1)%Z; cbn [negb]; [|failing K].
    destruct (Ok eq_refl) as (Er & c & Gc). rewrite Er. clear Ok Er r. set (p := List.length (mem s)) in *.
    assert (Keep : forall r k, accessible s r k -> accessible s1 r k).
    { intros r k Ac. exact (stays_access _ _ _ _ _ S1 (access_lt _ _ _ Ac) Ac). }
    destruct (small_sizes a) as (B1 & B2 & B3 & B4).
    rewrite den_skip, den_seq, bind_assoc.
    erewrite checked with (lr := fun r => hl (Some p) kd ip op i) (g := fun r => r);
      [|eapply evs_cons; [unfold hl; hv|eapply evs_cons; [apply X1|unfold hl; hv]]|apply name_plain
       |apply (update_called p (Some (pp, 0)) (VU RSz bs) bs s1);
         [reflexivity|exact W1|unfold enough in *; lia|now apply size_32|eauto|intros r Hr; injection Hr as <-; now apply Keep]
       |intros r; reflexivity].
    apply bind_ext. intros r s2 Hr.
    destruct (update_keeps E a p (Some (pp, 0)) bs e s1 r s2 W1 (ex_intro _ _ Gc)
                ltac:(intros r' Hr' _; injection Hr' as <-; now apply Keep) Hr) as (W2 & S2). clear Hr.
    destruct (r =? 1)%Z; cbn [negb]; [|failing K].
    rewrite den_skip, den_seq, bind_assoc.
    destruct (proj2 (proj2 (S2 (S p)) p ltac:(lia)) _ _ Gc) as (c2 & Gc2).
    assert (Keep2 : forall r k, accessible s r k -> accessible s2 r k).
    { intros r0 k Ac. exact (stays_access _ _ _ _ _ (S2 _) (access_lt _ _ _ Ac) (Keep _ _ Ac)). }
    erewrite checked with (lr := fun r => hl (Some p) kd ip op i) (g := fun r => r);
      [|eapply evs_cons; [unfold hl; hv|eapply evs_cons; [apply X2|eapply evs_cons; [apply X3|unfold hl; hv]]]|apply name_plain
       |apply (update_called p q v m s2); [exact Hv|exact W2|exact Fm|exact Hm|eauto|intros r0 Hr; apply Keep2; now apply AB]
       |intros r0; cbv beta; rewrite !copy_none; reflexivity].
    apply bind_ext. intros r0 s3 Hr.
    destruct (update_keeps E a p q m e s2 r0 s3 W2 (ex_intro _ _ Gc2) ltac:(intros r' Hr' _; apply Keep2; now apply AB) Hr) as (W3 & S3). clear Hr.
    destruct (r0 =? 1)%Z; cbn [negb]; [|failing K].
    rewrite den_skip, den_seq, bind_assoc.
    destruct (proj2 (proj2 (S3 (S p)) p ltac:(lia)) _ _ Gc2) as (c3 & Gc3).
    assert (Keep3 : forall r k, accessible s r k -> accessible s3 r k).
    { intros r1 k Ac. exact (stays_access _ _ _ _ _ (S3 _) (access_lt _ _ _ Ac) (Keep2 _ _ Ac)). }
    erewrite checked with (lr := fun r => hl (Some p) kd ip op i) (g := fun r => r);
      [|unfold hl; hv|apply name_plain
       |apply (finalize_called p h (VU RSz hn) hn s3); [reflexivity|exact W3|exact Hhn|eauto|intros r1 Hr H1; apply Keep3; now apply AH]
       |intros r1; reflexivity].
    apply bind_ext. intros r1 s4 Hr.
    destruct (finalize_keeps E a p h hn e s3 r1 s4 W3 (ex_intro _ _ Gc3) ltac:(intros r' Hr' H1 _; apply Keep3; now apply AH) Hr) as (W4 & S4). clear Hr.
    destruct (r1 =? 1)%Z; cbn [negb]; [|failing K].
    rewrite den_skip, den_seq, bind_assoc.
    erewrite checked with (lr := fun r => hl (snd r) kd ip op i);
      [|unfold hl; hv|apply name_plain|apply (text_free E fuel d a (Some (Some p)) e)|intros r2; reflexivity].
    apply bind_ext. intros r2 s5 Hr. destruct (free_keeps a p p e s4 r2 s5 (le_n _) W4 Hr) as (W5 & S5 & ->). clear Hr.
    cbn [fst snd Z.eqb Pos.eqb negb]. rewrite den_skip. apply HR; [exact W5|].
    eapply stays_trans; [exact S1|]. eapply stays_trans; [apply S2|]. eapply stays_trans; [apply S3|]. eapply stays_trans; [apply S4|exact S5].
  Qed.

  Notation ev := (eval E (text_of a (unrolled E)) (call_text E (text_of a (unrolled E)) fuel (S d))).

  Lemma size_literal : to_unsigned E RSz (VS R32 (hs_of a)) = Some hs.
  Proof. apply lit_size, small_sizes. Qed.
  Lemma minus_literal : forall x, hs <= x -> x < size_mod E -> binary E OSub (VU RSz x) (VS R32 (hs_of a)) = Some (VU RSz (x - hs)).
  Proof.
    intros x H1 H2. cbn [binary usual promote]. change (rank_leb R32 RSz) with true. cbv iota. rewrite size_literal. cbn [arith].
    now rewrite usub_size.
  Qed.
  Lemma over_literal : forall x, binary E OGt (VU RSz x) (VS R32 (hs_of a)) = Some (truth (hs <? x)).
  Proof. intros x. cbn [binary usual promote]. change (rank_leb R32 RSz) with true. cbv iota. rewrite size_literal. reflexivity. Qed.

  Lemma key_run : forall kp kd ip op i K R s, key = Some kp -> wf_state s -> accessible s kp kn -> accessible s (kh, 0) hs ->
    (forall s1, wf_state s1 -> stays (List.length (mem s)) s s1 -> K FNext (hl None (Some kd) ip op i) s1 = R s1) ->
    dn (key_text a) (hl None (Some kd) ip op i) K s =
    (r <- hmac_key_data E a kh kd kp kn e ;; match r with Some c => K FError (hl c (Some kd) ip op i) | None => R end) s.
  Proof.
    intros kp kd ip op i K R s Hkey W AK AH HR.
    assert (Ek : forall c s, ev (EVar "key") (hl c (Some kd) ip op i) s = Done (VBytes kp, hl c (Some kd) ip op i) s).
    { intros c s0. unfold hl. rewrite Hkey. reflexivity. }
    assert (Ea : forall s, ev (EAddr (EIndex (EVar "key_data") (EInt (hs_of a)))) (hl None (Some kd) ip op i) s =
                           Done (VBytes (kd, hs), hl None (Some kd) ip op i) s).
    { intros s0. cbn [eval hl lget String.eqb Ascii.eqb Bool.eqb]. unfold bind, ret. cbn [fst snd v_mem v_bytes option_map]. rewrite amount_hs. reflexivity. }
    destruct (small_sizes a) as (B1 & B2 & B3 & B4). unfold key_text, hmac_key_data.
    rewrite (decided _ _ _ _ _ _ (kn <=? bs)) by reflexivity. destruct (N.leb_spec kn bs) as [Hle|Hgt].
    - rewrite den_seq, bind_assoc.
      erewrite copied; [|eapply evs_cons; [unfold hl; hv|eapply evs_cons; [apply Ek|unfold hl; hv]]|reflexivity].
      apply bind_ext. intros [] s1 Hr. destruct (mcopy_keeps _ _ _ _ _ W Hr) as (W1 & S1). clear Hr. rewrite bind_assoc.
      erewrite filled; [|eapply evs_cons; [reflexivity|eapply evs_cons; [reflexivity|eapply evs_cons; [|apply evs_nil]]]|reflexivity].
      2: { eapply ev_bin; [unfold hl; hv|unfold hl; hv|]. cbn [binary usual promote rank_max arith]. rewrite usub_size; [reflexivity|exact Hle|now apply size_32]. }
      apply bind_ext. intros [] s2 Hr. apply mset_keeps in Hr as (W2 & S2); [|exact W1|reflexivity].
      rewrite bind_ret. apply HR; [exact W2|]. eapply stays_trans; [apply S1|apply S2].
    - rewrite den_seq, bind_assoc.
      erewrite checked with (lr := fun r => hl (snd r) (Some kd) ip op i);
        [|unfold hl; hv|apply name_plain|apply (text_initialize E fuel d a (Some None) e)|intros r; reflexivity].
      apply bind_ext. intros r s1 Hr. destruct (initialize_keeps E a e s r s1 W Hr) as (W1 & S1 & Ok & _). clear Hr.
      destruct (fst r =? 1)%Z; cbn [negb]; [|failing K].
      destruct (Ok eq_refl) as (Er & c & Gc). rewrite Er. clear Ok Er r. set (p := List.length (mem s)) in *.
      assert (Keep : forall r k, accessible s r k -> accessible s1 r k).
      { intros r k Ac. exact (stays_access _ _ _ _ _ S1 (access_lt _ _ _ Ac) Ac). }
      rewrite den_skip, den_seq, bind_assoc.
      erewrite checked with (lr := fun r => hl (Some p) (Some kd) ip op i) (g := fun r => r);
        [|eapply evs_cons; [unfold hl; hv|eapply evs_cons; [apply Ek|unfold hl; hv]]|apply name_plain
         |apply (update_called p (Some kp) (VU RSz kn) kn s1);
           [reflexivity|exact W1|exact Fk|exact Hkn|eauto|intros r Hr; injection Hr as <-; now apply Keep]
         |intros r; reflexivity].
      apply bind_ext. intros r s2 Hr.
      destruct (update_keeps E a p (Some kp) kn e s1 r s2 W1 (ex_intro _ _ Gc)
                  ltac:(intros r' Hr' _; injection Hr' as <-; now apply Keep) Hr) as (W2 & S2). clear Hr.
      destruct (r =? 1)%Z; cbn [negb]; [|failing K].
      rewrite den_skip, den_seq, bind_assoc.
      destruct (proj2 (proj2 (S2 (S p)) p ltac:(lia)) _ _ Gc) as (c2 & Gc2).
      assert (AH2 : forall q, Some (kh, 0) = Some q -> hs <= hs -> accessible s2 q hs).
      { intros q Hq _. injection Hq as <-. exact (stays_access _ _ _ _ _ (S2 _) (access_lt _ _ _ AH) (Keep _ _ AH)). }
      erewrite checked with (lr := fun r => hl (Some p) (Some kd) ip op i) (g := fun r => r);
        [|unfold hl; hv|apply name_plain
         |apply (finalize_called p (Some (kh, 0)) (VS R32 (hs_of a)) hs s2); [exact size_literal|exact W2|now apply size_32|eauto|exact AH2]
         |intros r0; reflexivity].
      apply bind_ext. intros r0 s3 Hr.
      destruct (finalize_keeps E a p (Some (kh, 0)) hs e s2 r0 s3 W2 (ex_intro _ _ Gc2) ltac:(intros r' Hr' H1 _; now apply AH2) Hr) as (W3 & S3). clear Hr.
      destruct (r0 =? 1)%Z; cbn [negb]; [|failing K].
      rewrite den_skip, den_seq, bind_assoc.
      erewrite checked with (lr := fun r => hl (snd r) (Some kd) ip op i);
        [|unfold hl; hv|apply name_plain|apply (text_free E fuel d a (Some (Some p)) e)|intros r2; reflexivity].
      apply bind_ext. intros r2 s4 Hr. destruct (free_keeps a p p e s3 r2 s4 (le_n _) W3 Hr) as (W4 & S4 & ->). clear Hr.
      cbn [fst snd Z.eqb Pos.eqb negb]. rewrite den_skip, den_seq, bind_assoc.
      rewrite (decided _ _ _ _ _ _ (hs <? bs)).
      2: { eapply ev_bin; [unfold hl; hv|unfold hl; hv|]. apply over_literal. }
      replace (hs <? bs) with true by (symmetry; now apply N.ltb_lt). 
      erewrite filled; [|eapply evs_cons; [|eapply evs_cons; [reflexivity|eapply evs_cons; [|apply evs_nil]]]|reflexivity].
      2: { exact (Ea s4). }
      2: { eapply ev_bin; [unfold hl; hv|unfold hl; hv|]. apply minus_literal; [now apply N.lt_le_incl|now apply size_32]. }
      apply bind_ext. intros [] s5 Hr. apply mset_keeps in Hr as (W5 & S5); [|exact W4|reflexivity]. rewrite bind_assoc.
      erewrite copied; [|unfold hl; hv|exact size_literal].
      apply bind_ext. intros [] s6 Hr. destruct (mcopy_keeps _ _ _ _ _ W5 Hr) as (W6 & S6). clear Hr.
      rewrite bind_ret. apply HR; [exact W6|].
      eapply stays_trans; [exact S1|]. eapply stays_trans; [apply S2|]. eapply stays_trans; [apply S3|]. eapply stays_trans; [exact S4|].
      eapply stays_trans; [apply S5|apply S6].
  Qed.

  (* what follows on_error, and the end *)
  Definition nones : list (option val) := [None; None; None; None; None; None; None].
  Definition hmac_end (z : Z) : M (val * list (option val)) := pop_local kh ;;; ret (VS R32 z, nones).

  Lemma hmac_leave : forall z c kd ip op i s,
    leave E (hmac_def a (unrolled E)) (FReturn (VS R32 z)) (hl c kd ip op i) s = hmac_end z s.
  Proof.
    intros z c kd ip op i s. destruct (hmac_eq a (unrolled E)) as (_ & _ & G1 & G2 & G3). unfold leave. rewrite G1, G2, G3. cbn [fst snd].
    change (convert E true R32 (VS R32 z)) with (Some (VS R32 z)). unfold hmac_end, nones.
    replace (map (fun x : string * val => match snd x with VRef u => Some u | _ => None end) (firstn 7 (hl c kd ip op i))) with
      (@nil (option val) ++ [None; None; None; None; None; None; None]) by (clear; unfold hl; destruct key, b, h, e; reflexivity).
    cbn [leave_arrays leave_frame]. unfold bind, lift, ret. cbn [hl lget String.eqb Ascii.eqb Bool.eqb].
    destruct (pop_local kh s) as [[] s1|]; reflexivity.
  Qed.

  Lemma discard_run : forall x q c kd ip op i K s,
    lget (hl c kd ip op i) x = Some (v_mem q) ->
    (forall s, ev (EVar x) (hl c kd ip op i) s = Done (v_mem q, hl c kd ip op i) s) ->
    dn (discard x) (hl c kd ip op i) K s = (clear_and_free a q ;;; K FNext (hl c kd ip op i)) s.
  Proof.
    intros x q c kd ip op i K s Hx Hev. unfold discard. erewrite given; [|exact Hx|apply null_mem]. destruct q as [q|]; cbn [clear_and_free].
    - rewrite den_seq, bind_assoc. erewrite filled_plain; [|eapply evs_cons; [apply Hev|unfold hl; hv]|reflexivity].
      apply bind_ext. intros [] s1 _. erewrite freed; [reflexivity|]. eapply evs_cons; [apply Hev|apply evs_nil].
    - rewrite den_skip. reflexivity.
  Qed.

  Lemma hmac_error_run : forall c kd ip op i s,
    dn (hmac_error a) (hl c kd ip op i) (leave E (hmac_def a (unrolled E))) s = (z <- hmac_on_error a c op ip kd ;; hmac_end z) s.
  Proof.
    intros c kd ip op i s. unfold hmac_error, hmac_on_error.
    assert (Rest : forall c s, dn (discard "outer_padding" ;- discard "inner_padding" ;- discard "key_data" ;- SReturn (EInt (-1))) (hl c kd ip op i)
        (leave E (hmac_def a (unrolled E))) s =
      (z <- (clear_and_free a op ;;; clear_and_free a ip ;;; clear_and_free a kd ;;; ret (-1)%Z) ;; hmac_end z) s).
    { intros c0 s0. rewrite den_seq, bind_assoc. rewrite (discard_run _ op) by (intros; unfold hl; hv || reflexivity).
      apply bind_ext. intros [] s1 _. rewrite den_seq, bind_assoc. rewrite (discard_run _ ip) by (intros; unfold hl; hv || reflexivity).
      apply bind_ext. intros [] s2 _. rewrite den_seq, bind_assoc. rewrite (discard_run _ kd) by (intros; unfold hl; hv || reflexivity).
      apply bind_ext. intros [] s3 _. rewrite den_return_int, bind_ret. apply hmac_leave. }
    rewrite den_seq, bind_assoc. erewrite given; [|unfold hl; bypair|apply null_ctx]. destruct c as [c|].
    - erewrite called with (lr := fun r => hl (snd r) kd ip op i);
        [|unfold hl; hv|apply name_plain|apply (text_free E fuel d a (Some (Some c)) false)|intros r; reflexivity].
      rewrite bind_assoc. apply bind_ext. intros r s1 _. rewrite bind_ret. apply Rest.
    - rewrite den_skip, bind_ret. apply Rest.
  Qed.

  Lemma allot_run : forall x v c kd ip op i (lr : option nat -> locals) K s,
    lget (hl c kd ip op i) x = Some (v_mem v) -> (forall q, lset (hl c kd ip op i) x (v_mem q) = Some (lr q)) ->
    dn (allot x) (hl c kd ip op i) K s = (q <- allocate_bytes E bs ;; K FNext (lr q)) s.
  Proof.
    intros x v c kd ip op i lr K s H1 H2. eapply allotted; [|exact H1|exact H2]. eapply evs_cons; [|apply evs_nil].
    eapply ev_bin; [reflexivity|unfold hl; hv|]. cbn [binary usual promote rank_max arith]. rewrite N.mul_1_l, N.mod_small; [reflexivity|].
    rewrite bits_size. apply size_32, small_sizes.
  Qed.

  Lemma end_run : forall kd ip op i ke s,
    (forall z c kd ip op i s, ke (FReturn (VS R32 z)) (hl c kd ip op i) s = hmac_end z s) ->
    dn end_text (hl None (Some kd) (Some ip) (Some op) i) ke s =
    (z <- (mset (op, 0) 0 bs ;;; mfree op ;;; mset (ip, 0) 0 bs ;;; mfree ip ;;; mset (kd, 0) 0 bs ;;; mfree kd ;;; ret 1%Z) ;; hmac_end z) s.
  Proof.
    intros kd ip op i ke s Ret. unfold end_text.
    rewrite den_seq, bind_assoc. erewrite filled; [|unfold hl; hv|reflexivity]. apply bind_ext. intros [] s1 _.
    rewrite den_seq, bind_assoc. erewrite freed; [|unfold hl; hv]. apply bind_ext. intros [] s2 _.
    rewrite den_seq. rewrite (emptied _ _ _ _ _ _ _ (Some op) (hl None (Some kd) (Some ip) None i)) by reflexivity.
    rewrite den_seq, bind_assoc. erewrite filled; [|unfold hl; hv|reflexivity]. apply bind_ext. intros [] s3 _.
    rewrite den_seq, bind_assoc. erewrite freed; [|unfold hl; hv]. apply bind_ext. intros [] s4 _.
    rewrite den_seq. rewrite (emptied _ _ _ _ _ _ _ (Some ip) (hl None (Some kd) None None i)) by reflexivity.
    rewrite den_seq, bind_assoc. erewrite filled; [|unfold hl; hv|reflexivity]. apply bind_ext. intros [] s5 _.
    rewrite den_seq, bind_assoc. erewrite freed; [|unfold hl; hv]. apply bind_ext. intros [] s6 _.
    rewrite den_seq. rewrite (emptied _ _ _ _ _ _ _ (Some kd) (hl None None None None i)) by reflexivity.
    rewrite den_return_int, bind_ret. apply Ret.
  Qed.

  Lemma limit_value : forall x, binary E OGt (VU RSz x) (VU RSz (ssize_max E)) = Some (truth (ssize_max E <? x)).
  Proof. reflexivity. Qed.
  Lemma ev_limit : forall l s, ev (ECast false RSz ESsizeMax) l s = Done (VU RSz (ssize_max E), l) s.
  Proof. intros l s. cbn [eval]. unfold bind, ret, ssize_max. cbn [fst snd convert to_unsigned option_map bits]. destruct (plat64 E); reflexivity. Qed.
  Lemma ev_hs : forall l s, ev (ECast false RSz (EInt (hs_of a))) l s = Done (VU RSz hs, l) s.
  Proof. intros l s. cbn [eval]. unfold bind, ret. cbn [fst snd convert]. rewrite size_literal. reflexivity. Qed.

  Lemma body_run : forall ke s,
    (forall z c kd ip op i s, ke (FReturn (VS R32 z)) (hl c kd ip op i) s = hmac_end z s) ->
    (forall c kd ip op i s, ke FError (hl c kd ip op i) s = (z <- hmac_on_error a c op ip kd ;; hmac_end z) s) ->
    wf_state s -> accessible s (kh, 0) hs -> arg s key kn -> arg s b n -> arg s h hn ->
    dn (hmac_text a) (hl None None None None 0) ke s = (z <- calculate_hmac_body E a kh key kn b n h hn e ;; hmac_end z) s.
  Proof.
    intros ke s Ret Err W AKH AK AB AH. unfold hmac_text, calculate_hmac_body. destruct (small_sizes a) as (B1 & B2 & B3 & B4).
    rewrite den_seq. erewrite missing; [|unfold hl; bypair|apply null_bytes].
    destruct key as [kp|] eqn:Hkey.
    2: { rewrite den_seq. erewrite erred by reflexivity. unfold fail. rewrite bind_assoc. apply bind_ext. intros [] s1 _.
         rewrite den_return_int, bind_ret. apply Ret. }
    rewrite den_skip, den_seq. rewrite (decided _ _ _ _ _ _ (ssize_max E <? kn)).
    2: { eapply ev_bin; [unfold hl; hv|apply ev_limit|apply limit_value]. }
    destruct (ssize_max E <? kn).
    { rewrite den_seq. erewrite erred by reflexivity. unfold fail. rewrite bind_assoc. apply bind_ext. intros [] s1 _.
      rewrite den_return_int, bind_ret. apply Ret. }
    rewrite den_skip, den_seq. rewrite (decided _ _ _ _ _ _ (hn <? hs)).
    2: { eapply ev_bin; [unfold hl; hv|apply ev_hs|reflexivity]. }
    destruct (N.ltb_spec hn hs) as [Hlt|Hge].
    { rewrite den_seq. erewrite erred by reflexivity. unfold fail. rewrite bind_assoc. apply bind_ext. intros [] s1 _.
      rewrite den_return_int, bind_ret. apply Ret. }
    assert (AH' : forall m q, m <= hn -> h = Some q -> accessible s q m).
    { intros m q Hm Hq. unfold arg in AH. rewrite Hq in AH. destruct AH as (l & G & L). exists l. split; [exact G|lia]. }
    assert (AB' : forall q, b = Some q -> accessible s q n).
    { intros q Hq. unfold arg in AB. now rewrite Hq in AB. }
    cbn [arg] in AK. clear AH AB.
    rewrite den_skip, den_seq, bind_assoc.
    rewrite (allot_run _ None _ _ _ _ _ (fun q => hl None q None None 0)) by (intros; reflexivity).
    apply bind_ext. intros okd s1 Hr. destruct (allocate_keeps _ _ _ _ _ W Hr) as (W1 & S1 & Hkd). clear Hr.
    rewrite den_seq. erewrite missing; [|unfold hl; bypair|apply null_mem].
    destruct okd as [kd|].
    2: { rewrite den_seq. erewrite erred by reflexivity. rewrite bind_assoc. apply bind_ext. intros [] s2 _. rewrite den_goto. apply Err. }
    destruct Hkd as (_ & Lkd & AKD).
    assert (K1 : forall r k, accessible s r k -> accessible s1 r k).
    { intros r k Ac. exact (stays_access _ _ _ _ _ S1 (access_lt _ _ _ Ac) Ac). }
    rewrite den_skip, den_seq, bind_assoc.
    eapply eq_trans; [eapply (key_run kp kd); [exact Hkey|exact W1|apply K1; exact AK|apply K1; exact AKH|]
                     |apply bind_ext; intros [c|] s2 _; [apply Err|reflexivity]].
    intros s2 W2 S2. cbv beta iota.
    assert (Lk2 : (kd < List.length (mem s2))%nat) by (destruct S2; lia).
    assert (K2 : forall r k, accessible s r k -> accessible s2 r k).
    { intros r k Ac. pose proof (access_lt _ _ _ (K1 _ _ Ac)). eapply stays_access; [exact S2|assumption|now apply K1]. }
    clear AKD W1 S1 S2 Lkd K1.
    rewrite den_seq, bind_assoc.
    rewrite (allot_run _ None _ _ _ _ _ (fun q => hl None (Some kd) q None 0)) by (intros; reflexivity).
    apply bind_ext. intros oip s3 Hr. destruct (allocate_keeps _ _ _ _ _ W2 Hr) as (W3 & S3 & Hip). clear Hr.
    rewrite den_seq. erewrite missing; [|unfold hl; bypair|apply null_mem].
    destruct oip as [ip|].
    2: { rewrite den_seq. erewrite erred by reflexivity. rewrite bind_assoc. apply bind_ext. intros [] s4 _. rewrite den_goto. apply Err. }
    destruct Hip as (_ & Lip & AIP).
    assert (K3 : forall r k, accessible s r k -> accessible s3 r k).
    { intros r k Ac. exact (stays_access _ _ _ _ _ S3 (access_lt _ _ _ (K2 _ _ Ac)) (K2 _ _ Ac)). }
    rewrite den_skip, den_seq, bind_assoc. erewrite filled; [|unfold hl; hv|reflexivity].
    apply bind_ext. intros [] s4 Hr. apply mset_keeps in Hr as (W4 & S4); [|exact W3|reflexivity].
    rewrite den_seq, bind_assoc.
    rewrite (allot_run _ None _ _ _ _ _ (fun q => hl None (Some kd) (Some ip) q 0)) by (intros; reflexivity).
    apply bind_ext. intros oop s5 Hr. destruct (allocate_keeps _ _ _ _ _ W4 Hr) as (W5 & S5 & Hop). clear Hr.
    rewrite den_seq. erewrite missing; [|unfold hl; bypair|apply null_mem].
    destruct oop as [op|].
    2: { rewrite den_seq. erewrite erred by reflexivity. rewrite bind_assoc. apply bind_ext. intros [] s6 _. rewrite den_goto. apply Err. }
    destruct Hop as (_ & Lop & AOP).
    assert (K5 : forall r k, accessible s3 r k -> accessible s5 r k).
    { intros r k Ac. pose proof (stays_access _ _ _ _ _ (S4 _) (access_lt _ _ _ Ac) Ac) as Ac'.
      exact (stays_access _ _ _ _ _ S5 (access_lt _ _ _ Ac') Ac'). }
    rewrite den_skip, den_seq, bind_assoc. erewrite filled; [|unfold hl; hv|reflexivity].
    apply bind_ext. intros [] s6 Hr. apply mset_keeps in Hr as (W6 & S6); [|exact W5|reflexivity].
    rewrite den_seq, bind_assoc.
    apply (xor_run _ _ _ _ _ ip op kd bs (hl None (Some kd) (Some ip) (Some op)) B2); try (intros; reflexivity); [exact W6|unfold enough in *; lia|].
    intros s7 (W7 & S7). cbv beta iota.
    assert (K7 : forall r k, accessible s5 r k -> accessible s7 r k).
    { intros r k Ac. pose proof (stays_access _ _ _ _ _ (S6 _) (access_lt _ _ _ Ac) Ac) as Ac'.
      exact (stays_access _ _ _ _ _ (S7 _) (access_lt _ _ _ Ac') Ac'). }
    rewrite bind_assoc.
    eapply eq_trans; [eapply (pass_run "inner_padding" ip (EVar "buffer") (EVar "size") b (VU RSz n) n);
                        [intros; reflexivity|intros; unfold hl; hv|intros; reflexivity|reflexivity|exact Fn|exact Hn|exact W7
                        |apply K7, K5; exact AIP|intros r Hr; apply K7, K5, K3; now apply AB'|intros r Hr Hle; apply K7, K5, K3; now apply AH'|]
                     |apply bind_ext; intros [c|] s8 _; [apply Err|reflexivity]].
    intros s8 W8 S8. cbv beta iota.
    assert (K8 : forall r k, accessible s7 r k -> accessible s8 r k).
    { intros r k Ac. exact (stays_access _ _ _ _ _ S8 (access_lt _ _ _ Ac) Ac). }
    rewrite bind_assoc.
    eapply eq_trans; [eapply (pass_run "outer_padding" op (EVar "hmac") (EInt (hs_of a)) h (VS R32 (hs_of a)) hs);
                        [intros; reflexivity|intros; unfold hl; hv|intros; reflexivity|exact size_literal|unfold enough in *; lia|now apply size_32|exact W8
                        |apply K8, K7; exact AOP|intros r Hr; apply K8, K7, K5, K3; now apply AH'|intros r Hr Hle; apply K8, K7, K5, K3; now apply AH'|]
                     |apply bind_ext; intros [c|] s9 _; [apply Err|reflexivity]].
    intros s9 W9 S9. cbv beta iota. apply end_run. exact Ret.
  Qed.
End Hmac.

Lemma text_calculate_hmac : forall E fuel d a key kn b n h hn e s,
  transform_as_modelled E fuel d a -> wf_state s -> enough fuel kn -> enough fuel n -> enough fuel 256 ->
  kn < size_mod E -> n < size_mod E -> hn < size_mod E -> arg s key kn -> arg s b n -> arg s h hn ->
  call_text E (text_of a (unrolled E)) fuel (S (S d)) (name_of a "calculate_hmac")
    [v_bytes key; VU RSz kn; v_bytes b; VU RSz n; v_bytes h; VU RSz hn; v_error e] s =
  (z <- calculate_hmac E a key kn b n h hn e ;; ret (VS R32 z, [None; None; None; None; None; None; None])) s.
Proof.
  intros E fuel d a key kn b n h hn e s TT W Fk Fn F2 Hkn Hn Hhn AK AB AH.
  set (kh := List.length (mem s)).
  set (s1 := set_mem (mem s ++ [mk_cell true Stack (OBytes (junk_bytes E kh (a_hs (alg_of a))))]) s).
  assert (En : forall R, (forall kl ke, kl = leave E (hmac_def a (unrolled E)) ->
    ke = (fun fl l => match fl with
                      | FReturn v => kl fl l
                      | FBreak => undef
                      | _ => in_text E a fuel (S d) (f_error (hmac_def a (unrolled E))) l kl
                      end) ->
     in_text E a fuel (S d) (f_body (hmac_def a (unrolled E))) (hl a key kn b n h hn e kh None None None None 0) ke s1 = R) ->
    call_text E (text_of a (unrolled E)) fuel (S (S d)) (name_of a "calculate_hmac")
      [v_bytes key; VU RSz kn; v_bytes b; VU RSz n; v_bytes h; VU RSz hn; v_error e] s = R).
  { intros R H. clear TT. destruct a; (eapply enter_fun; [reflexivity | tpar | reflexivity | tloc | exact H]). }
  apply En. intros kl ke Hkl Hke. clear En. destruct (hmac_eq a (unrolled E)) as (B1 & B2 & _). rewrite B1, B2 in *.
  assert (S1 : stays kh s s1).
  { split; [unfold s1; cbn [mem set_mem]; rewrite app_length; lia|]. intros p Hp. unfold get_obj, s1. cbn [mem set_mem]. fold kh in Hp.
    rewrite nth_error_app1 by exact Hp. split; intros; eauto. }
  assert (Ar : forall p k, arg s p k -> arg s1 p k).
  { intros [p|] k H; [|exact I]. cbn [arg] in *. exact (stays_access _ _ _ _ _ S1 (access_lt _ _ _ H) H). }
  rewrite (body_run E fuel d a key kn b n h hn e kh).
  - unfold calculate_hmac. rewrite bind_assoc. unfold push_local at 1. unfold bind at 2. cbv beta. fold kh. fold s1.
    rewrite bind_assoc. apply bind_ext. intros z s2 _. unfold hmac_end. rewrite bind_assoc. apply bind_ext. intros [] s3 _. reflexivity.
  - exact TT.
  - exact Fk.
  - exact Fn.
  - exact F2.
  - exact Hkn.
  - exact Hn.
  - exact Hhn.
  - intros z c kd ip op i s2. rewrite Hke, Hkl. apply hmac_leave.
  - intros c kd ip op i s2. rewrite Hke, Hkl. apply hmac_error_run.
  - apply wf_cells. unfold s1. cbn [mem set_mem]. apply Forall_app. split; [now apply wf_cells|]. constructor; [|constructor]. intros _. cbn [content obj_ok].
    apply Forall_forall. intros x Hx. unfold junk_bytes in Hx. apply in_map_iff in Hx as (j & <- & _). apply N.mod_lt. discriminate.
  - eexists. unfold get_obj, s1. cbn [mem set_mem fst snd]. unfold kh. rewrite nth_error_app2, Nat.sub_diag by lia. split; [reflexivity|].
    unfold junk_bytes. rewrite map_length, seq_length. lia.
  - now apply Ar.
  - now apply Ar.
  - now apply Ar.
Qed.
