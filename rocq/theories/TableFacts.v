(* The constant tables against the real sines, roots and primes. *)
From Coq Require Import Arith NArith ZArith Reals Lra Lia List Bool Znumtheory FinFun.
From Verif Require Import Words Tables.
Import ListNotations.
Open Scope Z_scope.

(* ---------- integer parts ---------- *)
Lemma Int_part_of : forall r z, (IZR z <= r < IZR z + 1)%R -> Int_part r = z.
Proof.
  intros r z [H1 H2]. unfold Int_part. rewrite <- (up_tech r z); [lia|exact H1|]. now rewrite plus_IZR.
Qed.

(* ---------- sin 1 and cos 1 by their series ---------- *)
Fixpoint zfact (n : nat) : Z := match n with O => 1 | S k => Z.of_nat (S k) * zfact k end.
Lemma zfact_fact : forall n, IZR (zfact n) = INR (fact n).
Proof.
  induction n as [|n IH]; [reflexivity|]. cbn [zfact]. rewrite mult_IZR, IH. rewrite <- INR_IZR_INZ. rewrite <- mult_INR. reflexivity.
Qed.
Fixpoint sin_num (n : nat) : Z :=
  match n with O => 1 | S k => sin_num k * (Z.of_nat (2 * S k) * Z.of_nat (2 * S k + 1)) + (if Nat.even n then 1 else -1) end.
Fixpoint cos_num (n : nat) : Z :=
  match n with O => 1 | S k => cos_num k * (Z.of_nat (2 * k + 1) * Z.of_nat (2 * S k)) + (if Nat.even n then 1 else -1) end.
Lemma sign_pow : forall n, ((-1) ^ n)%R = IZR (if Nat.even n then 1 else -1).
Proof.
  induction n as [|n IH]; [reflexivity|]. cbn [pow]. rewrite IH, Nat.even_succ, <- Nat.negb_even. destruct (Nat.even n); cbn; lra.
Qed.
Lemma fact_nz : forall n, IZR (zfact n) <> 0%R.
Proof. intros. rewrite zfact_fact. apply INR_fact_neq_0. Qed.
Lemma sin_series : forall n, sin_approx 1 n = (IZR (sin_num n) / IZR (zfact (2 * n + 1)))%R.
Proof.
  unfold sin_approx. induction n as [|n IH].
  - cbn. unfold sin_term. cbn. lra.
  - rewrite tech5, IH. unfold sin_term. rewrite sign_pow, pow1. rewrite <- zfact_fact.
    assert (E : zfact (2 * S n + 1) = Z.of_nat (2 * S n + 1) * (Z.of_nat (2 * S n) * zfact (2 * n + 1))).
    { replace (2 * S n + 1)%nat with (S (S (2 * n + 1))) by lia. cbn [zfact].
      replace (2 * S n)%nat with (S (2 * n + 1)) by lia. reflexivity. }
    assert (F : sin_num (S n) = sin_num n * (Z.of_nat (2 * S n) * Z.of_nat (2 * S n + 1)) + (if Nat.even (S n) then 1 else -1)) by reflexivity.
    rewrite E, F. rewrite plus_IZR, !mult_IZR. generalize (IZR (if Nat.even (S n) then 1 else -1)). intros sg.
    pose proof (fact_nz (2 * n + 1)). assert (IZR (Z.of_nat (2 * S n + 1)) <> 0%R) by (apply not_0_IZR; lia).
    assert (IZR (Z.of_nat (2 * S n)) <> 0%R) by (apply not_0_IZR; lia). field. auto.
Qed.
Lemma cos_series : forall n, cos_approx 1 n = (IZR (cos_num n) / IZR (zfact (2 * n)))%R.
Proof.
  unfold cos_approx. induction n as [|n IH].
  - cbn. unfold cos_term. cbn. lra.
  - rewrite tech5, IH. unfold cos_term. rewrite sign_pow, pow1. rewrite <- zfact_fact.
    assert (E : zfact (2 * S n) = Z.of_nat (2 * S n) * (Z.of_nat (2 * n + 1) * zfact (2 * n))).
    { replace (2 * S n)%nat with (S (S (2 * n))) by lia. cbn [zfact].
      replace (2 * n + 1)%nat with (S (2 * n)) by lia. reflexivity. }
    assert (F : cos_num (S n) = cos_num n * (Z.of_nat (2 * n + 1) * Z.of_nat (2 * S n)) + (if Nat.even (S n) then 1 else -1)) by reflexivity.
    rewrite E, F. rewrite plus_IZR, !mult_IZR. generalize (IZR (if Nat.even (S n) then 1 else -1)). intros sg.
    pose proof (fact_nz (2 * n)). assert (IZR (Z.of_nat (2 * n + 1)) <> 0%R) by (apply not_0_IZR; lia).
    assert (IZR (Z.of_nat (2 * S n)) <> 0%R) by (apply not_0_IZR; lia). field. auto.
Qed.

(* ---------- fixed point numbers with 200 fractional bits ---------- *)
Definition D : Z := 2 ^ 200.
Definition s1 : Z := sin_num 19 * D / zfact 39.
Definition c1 : Z := cos_num 19 * D / zfact 38.
(* x is within e units of v *)
Definition near (x : R) (v e : Z) : Prop := (IZR (v - e) <= x * IZR D <= IZR (v + e))%R.

Lemma scaled : forall x n1 d1 n2 d2 v e, (0 < d1) -> (0 < d2) ->
  (IZR n1 / IZR d1 <= x <= IZR n2 / IZR d2)%R -> (v - e) * d1 <= n1 * D -> n2 * D <= (v + e) * d2 -> near x v e.
Proof.
  intros x n1 d1 n2 d2 v e P1 P2 [L U] HL HU. apply IZR_lt in P1, P2. apply IZR_le in HL, HU. rewrite !mult_IZR in HL, HU.
  assert (PD : (0 < IZR D)%R) by (apply IZR_lt; reflexivity). split.
  - apply Rle_trans with (IZR n1 / IZR d1 * IZR D)%R; [|apply Rmult_le_compat_r; lra].
    apply (Rmult_le_reg_r (IZR d1)); [lra|]. replace (IZR n1 / IZR d1 * IZR D * IZR d1)%R with (IZR n1 * IZR D)%R by (field; lra). exact HL.
  - apply Rle_trans with (IZR n2 / IZR d2 * IZR D)%R; [apply Rmult_le_compat_r; lra|].
    apply (Rmult_le_reg_r (IZR d2)); [lra|]. replace (IZR n2 / IZR d2 * IZR D * IZR d2)%R with (IZR n2 * IZR D)%R by (field; lra). exact HU.
Qed.
Definition e1 : Z := 2 ^ 60.
Lemma near_sin1 : near (sin 1) s1 e1.
Proof.
  pose proof (pre_sin_bound 1 9 ltac:(lra) ltac:(lra)) as B. change (2 * 9 + 1)%nat with 19%nat in B. change (2 * (9 + 1))%nat with 20%nat in B.
  rewrite !sin_series in B. eapply scaled; [| |exact B| |]; vm_compute; (reflexivity || discriminate).
Qed.
Lemma near_cos1 : near (cos 1) c1 e1.
Proof.
  pose proof (pre_cos_bound 1 9 ltac:(lra) ltac:(lra)) as B. change (2 * 9 + 1)%nat with 19%nat in B. change (2 * (9 + 1))%nat with 20%nat in B.
  rewrite !cos_series in B. eapply scaled; [| |exact B| |]; vm_compute; (reflexivity || discriminate).
Qed.

Lemma near_abs : forall x v e, near x v e -> (Rabs (x * IZR D - IZR v) <= IZR e)%R.
Proof. intros x v e [L U]. rewrite minus_IZR in L. rewrite plus_IZR in U. apply Rabs_le. lra. Qed.
Lemma abs_near : forall x v e, (Rabs (x * IZR D - IZR v) <= IZR e)%R -> near x v e.
Proof.
  intros x v e H. unfold near. rewrite minus_IZR, plus_IZR. pose proof (Rle_abs (x * IZR D - IZR v)). pose proof (Rle_abs (- (x * IZR D - IZR v))).
  rewrite Rabs_Ropp in H1. lra.
Qed.
Lemma near_div : forall X v e, (Rabs (X - IZR v) <= IZR e * IZR D)%R -> (Rabs (X / IZR D - IZR (v / D)) <= IZR (e + 1))%R.
Proof.
  intros X v e H. assert (PD : (0 < IZR D)%R) by (apply IZR_lt; reflexivity).
  pose proof (Z.div_mod v D ltac:(discriminate)) as Q. pose proof (Z.mod_pos_bound v D ltac:(reflexivity)) as M.
  set (q := v / D) in *. set (r := v mod D) in *. rewrite Q in H. rewrite plus_IZR, mult_IZR in H. destruct M as [M1 M2].
  apply IZR_le in M1. apply IZR_lt in M2. rewrite plus_IZR.
  replace (X / IZR D - IZR q)%R with ((X - (IZR D * IZR q + IZR r)) * / IZR D + IZR r * / IZR D)%R by (field; lra).
  eapply Rle_trans; [apply Rabs_triang|]. apply Rplus_le_compat.
  - rewrite Rabs_mult. rewrite (Rabs_pos_eq (/ IZR D)) by (left; now apply Rinv_0_lt_compat).
    apply (Rmult_le_reg_r (IZR D)); [exact PD|]. rewrite Rmult_assoc, Rinv_l, Rmult_1_r by lra. exact H.
  - rewrite Rabs_pos_eq; [|apply Rmult_le_pos; [exact M1|left; now apply Rinv_0_lt_compat]].
    apply (Rmult_le_reg_r (IZR D)); [exact PD|]. rewrite Rmult_assoc, Rinv_l, Rmult_1_r by lra. lra.
Qed.
Lemma near_mult : forall x y u v e f, near x u e -> near y v f -> (Rabs x <= 1)%R -> Z.abs v <= D ->
  (Rabs (x * y * IZR D * IZR D - IZR (u * v)) <= IZR (e + f) * IZR D)%R.
Proof.
  intros x y u v e f HX HY BX BV. apply near_abs in HX, HY. apply IZR_le in BV. rewrite abs_IZR in BV.
  assert (PD : (0 < IZR D)%R) by (apply IZR_lt; reflexivity).
  rewrite mult_IZR, plus_IZR.
  replace (x * y * IZR D * IZR D - IZR u * IZR v)%R with (x * IZR D * (y * IZR D - IZR v) + (x * IZR D - IZR u) * IZR v)%R by ring.
  eapply Rle_trans; [apply Rabs_triang|]. rewrite !Rabs_mult. rewrite (Rabs_pos_eq (IZR D)) by lra.
  pose proof (Rabs_pos (y * IZR D - IZR v)). pose proof (Rabs_pos (x * IZR D - IZR u)). pose proof (Rabs_pos x). pose proof (Rabs_pos (IZR v)).
  assert (A1 : (Rabs x * IZR D * Rabs (y * IZR D - IZR v) <= 1 * IZR D * IZR f)%R).
  { apply Rmult_le_compat; [apply Rmult_le_pos; lra|lra| |lra]. apply Rmult_le_compat_r; lra. }
  assert (A2 : (Rabs (x * IZR D - IZR u) * Rabs (IZR v) <= IZR e * IZR D)%R) by (apply Rmult_le_compat; lra).
  lra.
Qed.
Lemma sin_le1 : forall x, (Rabs (sin x) <= 1)%R.
Proof. intros. apply Rabs_le. pose proof (SIN_bound x). lra. Qed.
Lemma cos_le1 : forall x, (Rabs (cos x) <= 1)%R.
Proof. intros. apply Rabs_le. pose proof (COS_bound x). lra. Qed.

(* one more radian *)
Definition turn (p : Z * Z * Z) : Z * Z * Z :=
  let '(s, c, e) := p in ((s * c1 + c * s1) / D, (c * c1 - s * s1) / D, 2 * e + 2 * e1 + 1).
Definition approx (n : nat) (p : Z * Z * Z) : Prop :=
  let '(s, c, e) := p in near (sin (INR n)) s e /\ near (cos (INR n)) c e.
Lemma s1_small : Z.abs s1 <= D. Proof. vm_compute. discriminate. Qed.
Lemma c1_small : Z.abs c1 <= D. Proof. vm_compute. discriminate. Qed.
Lemma turn_ok : forall n p, approx n p -> approx (S n) (turn p).
Proof.
  intros n [[s c] e] [HS HC]. unfold turn, approx. rewrite S_INR.
  assert (PD : (IZR D <> 0)%R) by (apply not_0_IZR; discriminate).
  pose proof (near_mult _ _ _ _ _ _ HS near_cos1 (sin_le1 _) c1_small) as SC.
  pose proof (near_mult _ _ _ _ _ _ HC near_sin1 (cos_le1 _) s1_small) as CS.
  pose proof (near_mult _ _ _ _ _ _ HC near_cos1 (cos_le1 _) c1_small) as CC.
  pose proof (near_mult _ _ _ _ _ _ HS near_sin1 (sin_le1 _) s1_small) as SS.
  split; apply abs_near.
  - rewrite sin_plus.
    replace ((sin (INR n) * cos 1 + cos (INR n) * sin 1) * IZR D)%R
      with ((sin (INR n) * cos 1 * IZR D * IZR D + cos (INR n) * sin 1 * IZR D * IZR D) / IZR D)%R by (field; exact PD).
    replace (2 * e + 2 * e1 + 1) with ((e + e1) + (e + e1) + 1) by lia. apply near_div.
    rewrite plus_IZR, (plus_IZR (e + e1)). rewrite Rmult_plus_distr_r.
    match goal with |- (Rabs (?a + ?b - (?c + ?d)) <= _)%R => replace (a + b - (c + d))%R with ((a - c) + (b - d))%R by ring end.
    eapply Rle_trans; [apply Rabs_triang|]. apply Rplus_le_compat; assumption.
  - rewrite cos_plus.
    replace ((cos (INR n) * cos 1 - sin (INR n) * sin 1) * IZR D)%R
      with ((cos (INR n) * cos 1 * IZR D * IZR D - sin (INR n) * sin 1 * IZR D * IZR D) / IZR D)%R by (field; exact PD).
    replace (2 * e + 2 * e1 + 1) with ((e + e1) + (e + e1) + 1) by lia. apply near_div.
    rewrite minus_IZR, (plus_IZR (e + e1)). rewrite Rmult_plus_distr_r.
    match goal with |- (Rabs (?a - ?b - (?c - ?d)) <= _)%R => replace (a - b - (c - d))%R with ((a - c) + - (b - d))%R by ring end.
    eapply Rle_trans; [apply Rabs_triang|]. rewrite Rabs_Ropp. apply Rplus_le_compat; assumption.
Qed.
Definition start : Z * Z * Z := (s1, c1, e1).
Lemma start_ok : approx 1 start.
Proof. split; [exact near_sin1|exact near_cos1]. Qed.

(* is n the integer part of 2^32 |sin|, judged from the approximation *)
Definition settled (p : Z * Z * Z) (n : N) : bool :=
  let '(s, _, e) := p in (Z.of_N n * D <=? (Z.abs s - e) * 2 ^ 32) && ((Z.abs s + e) * 2 ^ 32 <? (Z.of_N n + 1) * D).
Lemma settled_ok : forall k p n, approx k p -> settled p n = true -> Int_part (4294967296 * Rabs (sin (INR k))) = Z.of_N n.
Proof.
  intros k [[s c] e] n [HS _] H. unfold settled in H. apply andb_prop in H. destruct H as [H1 H2]. apply Z.leb_le in H1. apply Z.ltb_lt in H2.
  assert (PD : (0 < IZR D)%R) by (apply IZR_lt; reflexivity).
  apply near_abs in HS. assert (HA : (Rabs (Rabs (sin (INR k)) * IZR D - IZR (Z.abs s)) <= IZR e)%R).
  { rewrite abs_IZR. rewrite <- (Rabs_pos_eq (IZR D)) by lra. rewrite <- Rabs_mult. eapply Rle_trans; [apply Rabs_triang_inv2|]. exact HS. }
  apply abs_near in HA. destruct HA as [L U]. apply IZR_le in H1. apply IZR_lt in H2. rewrite !mult_IZR in H1, H2. rewrite (plus_IZR (Z.of_N n)) in H2.
  change (IZR (2 ^ 32)) with 4294967296%R in *.
  set (y := Rabs (sin (INR k))) in *. apply Int_part_of. split.
  - apply (Rmult_le_reg_r (IZR D)); [exact PD|]. lra.
  - apply (Rmult_lt_reg_r (IZR D)); [exact PD|]. lra.
Qed.
Fixpoint all_settled (p : Z * Z * Z) (l : list N) : bool :=
  match l with [] => true | n :: t => settled p n && all_settled (turn p) t end.
Lemma all_settled_ok : forall l k p, approx k p -> all_settled p l = true ->
  forall i n, nth_error l i = Some n -> Int_part (4294967296 * Rabs (sin (INR (k + i)))) = Z.of_N n.
Proof.
  induction l as [|x l IH]; intros k p HA H i n Hi; [destruct i; discriminate|].
  cbn [all_settled] in H. apply andb_prop in H. destruct H as [H1 H2]. destruct i as [|i].
  - cbn in Hi. injection Hi as ->. rewrite Nat.add_0_r. exact (settled_ok k p n HA H1).
  - cbn in Hi. replace (k + S i)%nat with (S k + i)%nat by lia. exact (IH (S k) (turn p) (turn_ok k p HA) H2 i n Hi).
Qed.
Lemma sines_settled : all_settled start md5_sines = true.
Proof. vm_compute. reflexivity. Qed.
Lemma md5_sines_ok : forall i n, nth_error md5_sines i = Some n -> Int_part (4294967296 * Rabs (sin (INR (S i)))) = Z.of_N n.
Proof. exact (all_settled_ok md5_sines 1 start start_ok sines_settled). Qed.
Lemma md5_sines_length : length md5_sines = 64%nat. Proof. reflexivity. Qed.

(* ---------- roots ---------- *)
Lemma pow_mono : forall n x y, (0 <= x)%R -> (0 <= y)%R -> (x ^ S n < y ^ S n)%R -> (x < y)%R.
Proof.
  intros n x y HX HY H. destruct (Rlt_le_dec x y) as [L|L]; [exact L|]. pose proof (pow_incr y x (S n) (conj HY L)). lra.
Qed.
Lemma pow_mono_le : forall n x y, (0 <= x)%R -> (0 <= y)%R -> (x ^ S n <= y ^ S n)%R -> (x <= y)%R.
Proof.
  intros n x y HX HY H. destruct (Rle_lt_dec x y) as [L|L]; [exact L|].
  destruct (Req_dec (x ^ S n) (y ^ S n)) as [E|E].
  - exfalso. assert (y ^ S n < x ^ S n)%R; [|lra].
    assert (P : forall m, (y ^ S m < x ^ S m)%R).
    { induction m as [|m IH]; [cbn; lra|]. change (y * y ^ S m < x * x ^ S m)%R. pose proof (pow_le y (S m) HY).
      apply Rle_lt_trans with (x * y ^ S m)%R; [apply Rmult_le_compat_r; lra|]. apply Rmult_lt_compat_l; lra. }
    apply P.
  - assert (x < y)%R; [|lra]. apply (pow_mono n); [exact HX|exact HY|lra].
Qed.

(* v is the integer part of 2^b times the k-th root of p *)
Definition root_is (k : nat) (b p v : Z) : bool :=
  (v ^ Z.of_nat k <=? p * 2 ^ (b * Z.of_nat k)) && (p * 2 ^ (b * Z.of_nat k) <? (v + 1) ^ Z.of_nat k).
Lemma root_bounds : forall k b p v x, 0 <= b -> 0 <= v -> root_is (S k) b p v = true -> (0 <= x)%R -> (x ^ S k = IZR p)%R ->
  (IZR v <= x * IZR (2 ^ b) < IZR v + 1)%R.
Proof.
  intros k b p v x HB HV H HX HP. unfold root_is in H. apply andb_prop in H. destruct H as [H1 H2]. apply Z.leb_le in H1. apply Z.ltb_lt in H2.
  apply IZR_le in H1. apply IZR_lt in H2. rewrite mult_IZR in H1, H2. rewrite <- !pow_IZR in H1, H2. rewrite Z.pow_mul_r in H1, H2 by lia.
  rewrite <- !pow_IZR in H1, H2. rewrite <- HP in H1, H2. rewrite <- Rpow_mult_distr in H1, H2. rewrite plus_IZR in H2.
  assert (PB : (0 <= IZR (2 ^ b))%R) by (apply IZR_le; apply Z.pow_nonneg; lia). apply IZR_le in HV.
  assert (P0 : (0 <= x * IZR (2 ^ b))%R) by (apply Rmult_le_pos; assumption). split.
  - apply (pow_mono_le k); [exact HV|exact P0|exact H1].
  - apply (pow_mono k); [exact P0|lra|exact H2].
Qed.
Lemma frac_bits : forall x b v, 0 <= b -> (IZR v <= x * IZR (2 ^ b) < IZR v + 1)%R ->
  Int_part (frac_part x * IZR (2 ^ b)) = v mod 2 ^ b.
Proof.
  intros x b v HB [L U]. assert (PB : 0 < 2 ^ b) by (apply Z.pow_pos_nonneg; lia). pose proof (IZR_lt _ _ PB) as PR.
  pose proof (Z.div_mod v (2 ^ b) ltac:(lia)) as Q. pose proof (Z.mod_pos_bound v (2 ^ b) PB) as M.
  set (q := v / 2 ^ b) in *. set (r := v mod 2 ^ b) in *.
  assert (IP : Int_part x = q).
  { apply Int_part_of. rewrite Q in L, U. rewrite plus_IZR, mult_IZR in L, U. destruct M as [M1 M2].
    assert (M3 : r + 1 <= 2 ^ b) by lia. apply IZR_le in M1, M3. rewrite plus_IZR in M3. split.
    - apply (Rmult_le_reg_r (IZR (2 ^ b))); [exact PR|]. lra.
    - apply (Rmult_lt_reg_r (IZR (2 ^ b))); [exact PR|]. lra. }
  apply Int_part_of. unfold frac_part. rewrite IP. rewrite Q in L, U. rewrite plus_IZR, mult_IZR in L, U. lra.
Qed.

(* every entry of a table is the first bits of the fractional part of a root: given the root's integer value *)
Definition entry_is (k : nat) (b : Z) (pn : Z * N) : bool :=
  let p := fst pn in let n := Z.of_N (snd pn) in
  existsb (fun i => root_is k b p (i * 2 ^ b + n) && (n <? 2 ^ b)) (map Z.of_nat (seq 0 32)).
Lemma entry_ok : forall k b p n x, 0 <= b -> entry_is (S k) b (p, n) = true -> (0 <= x)%R -> (x ^ S k = IZR p)%R ->
  Int_part (frac_part x * IZR (2 ^ b)) = Z.of_N n.
Proof.
  intros k b p n x HB H HX HP. unfold entry_is in H. apply existsb_exists in H. destruct H as [i [Hi H]]. cbn [fst snd] in H.
  apply in_map_iff in Hi. destruct Hi as [j [<- _]]. apply andb_prop in H. destruct H as [H1 H2]. apply Z.ltb_lt in H2.
  assert (PB : 0 < 2 ^ b) by (apply Z.pow_pos_nonneg; lia).
  rewrite (frac_bits x b (Z.of_nat j * 2 ^ b + Z.of_N n) HB).
  - rewrite Z.add_comm, Z.mod_add by lia. apply Z.mod_small. lia.
  - apply (root_bounds k b p); try assumption. nia.
Qed.
Lemma frac_frac : forall x b, 0 <= b -> frac_part (frac_part x * IZR (2 ^ b)) = frac_part (x * IZR (2 ^ b)).
Proof.
  intros x b HB. assert (E : (frac_part x * IZR (2 ^ b) = x * IZR (2 ^ b) - IZR (Int_part x * 2 ^ b))%R) by (unfold frac_part; rewrite mult_IZR; ring).
  rewrite E. set (y := (x * IZR (2 ^ b))%R). set (z := Int_part x * 2 ^ b). unfold frac_part.
  replace (Int_part (y - IZR z)) with (Int_part y - z); [rewrite minus_IZR; ring|].
  symmetry. apply Int_part_of. rewrite minus_IZR. pose proof (base_Int_part y). lra.
Qed.

(* the primes in order *)
Definition primes80 : list Z :=
  [2; 3; 5; 7; 11; 13; 17; 19; 23; 29; 31; 37; 41; 43; 47; 53; 59; 61; 67; 71; 73; 79; 83; 89; 97; 101; 103; 107; 109; 113; 127; 131; 137; 139;
   149; 151; 157; 163; 167; 173; 179; 181; 191; 193; 197; 199; 211; 223; 227; 229; 233; 239; 241; 251; 257; 263; 269; 271; 277; 281; 283; 293;
   307; 311; 313; 317; 331; 337; 347; 349; 353; 359; 367; 373; 379; 383; 389; 397; 401; 409].
Definition looks_prime (p : Z) : bool := (1 <? p) && forallb (fun d => (d =? p) || negb (p mod d =? 0)) (map Z.of_nat (seq 2 20)).
Lemma prime_small : forall p, 1 < p < 441 -> (prime p <-> looks_prime p = true).
Proof.
  intros p Hp. unfold looks_prime. rewrite andb_true_iff, forallb_forall, Z.ltb_lt. split.
  - intros HP. split; [lia|]. intros d Hd. apply in_map_iff in Hd. destruct Hd as [k [<- Hk]]. apply in_seq in Hk.
    destruct (Z.eqb_spec (Z.of_nat k) p); [reflexivity|]. cbn. apply negb_true_iff. apply Z.eqb_neq. intros HM.
    apply Z.mod_divide in HM; [|lia]. destruct (prime_divisors p HP _ HM) as [A|[A|[A|A]]]; lia.
  - intros [_ H]. apply prime_alt. split; [lia|]. intros d Hd [q Hq].
    assert (HS : exists e, 2 <= e <= 21 /\ e < p /\ (e | p)).
    { destruct (Z_le_gt_dec d 21); [exists d; repeat split; try lia; now exists q|].
      assert (1 < q) by nia. assert (q <= 20) by nia. exists q. repeat split; try nia. exists d. lia. }
    destruct HS as [e [H1 [H2 H3]]]. specialize (H e). assert (HI : In e (map Z.of_nat (seq 2 20))).
    { apply in_map_iff. exists (Z.to_nat e). split; [lia|]. apply in_seq. lia. }
    apply H in HI. apply Z.mod_divide in H3; [|lia]. apply orb_true_iff in HI. destruct HI as [HI|HI].
    + apply Z.eqb_eq in HI. lia.
    + rewrite H3 in HI. discriminate.
Qed.
Lemma primes80_are : forall p, In p primes80 <-> prime p /\ p < 410.
Proof.
  assert (F : filter looks_prime (map Z.of_nat (seq 0 410)) = primes80) by (vm_compute; reflexivity).
  intros p. rewrite <- F. rewrite filter_In. split.
  - intros [HI HL]. apply in_map_iff in HI. destruct HI as [k [<- HK]]. apply in_seq in HK. split; [|lia].
    apply prime_small; [|exact HL]. unfold looks_prime in HL. apply andb_prop in HL. destruct HL as [HL _]. apply Z.ltb_lt in HL. lia.
  - intros [HP HL]. assert (1 < p) by (destruct HP; lia). split.
    + apply in_map_iff. exists (Z.to_nat p). split; [lia|]. apply in_seq. lia.
    + apply prime_small; [lia|exact HP].
Qed.

(* p is the prime with exactly i primes below it *)
Definition nth_prime (i : nat) (p : Z) : Prop :=
  prime p /\ exists below, NoDup below /\ length below = i /\ forall q, In q below <-> prime q /\ q < p.
Lemma sorted_primes : forall i p, nth_error primes80 i = Some p -> forall q, In q primes80 -> (In q (firstn i primes80) <-> q < p).
Proof.
  assert (B : forallb (fun i => match nth_error primes80 i with None => false | Some p =>
      forallb (fun q => q <? p) (firstn i primes80) && forallb (fun q => p <=? q) (skipn i primes80) end) (seq 0 80) = true) by (vm_compute; reflexivity).
  intros i p Hi q Hq. assert (HL : (i < 80)%nat) by (change 80%nat with (length primes80); apply nth_error_Some; congruence).
  rewrite forallb_forall in B. specialize (B i). rewrite Hi in B. assert (HI : In i (seq 0 80)) by (apply in_seq; lia). apply B in HI.
  apply andb_prop in HI. destruct HI as [H1 H2]. rewrite forallb_forall in H1, H2. split.
  - intros H. apply H1 in H. now apply Z.ltb_lt in H.
  - intros H. rewrite <- (firstn_skipn i primes80) in Hq. apply in_app_or in Hq. destruct Hq as [Hq|Hq]; [exact Hq|]. apply H2 in Hq. apply Z.leb_le in Hq. lia.
Qed.
Lemma NoDup_firstn : forall A (l : list A) n, NoDup l -> NoDup (firstn n l).
Proof.
  intros A l n H. revert n. induction H as [|x l HN HD IH]; intros [|n]; cbn; try constructor.
  - intros HI. apply HN. rewrite <- (firstn_skipn n l). apply in_or_app. now left.
  - apply IH.
Qed.
Lemma primes80_nodup : NoDup primes80.
Proof.
  assert (F : filter looks_prime (map Z.of_nat (seq 0 410)) = primes80) by (vm_compute; reflexivity).
  rewrite <- F. apply NoDup_filter. apply FinFun.Injective_map_NoDup; [intros x y; apply Nat2Z.inj|apply seq_NoDup].
Qed.
Lemma nth_prime_ok : forall i p, nth_error primes80 i = Some p -> nth_prime i p.
Proof.
  intros i p Hi. assert (HP : In p primes80) by (eapply nth_error_In; exact Hi). split; [now apply primes80_are|].
  exists (firstn i primes80). assert (HL : (i < 80)%nat) by (change 80%nat with (length primes80); apply nth_error_Some; congruence).
  split; [apply NoDup_firstn; exact primes80_nodup|]. split; [rewrite firstn_length; change (length primes80) with 80%nat; lia|].
  intros q. split.
  - intros HQ. assert (HI : In q primes80) by (rewrite <- (firstn_skipn i primes80); apply in_or_app; now left).
    split; [now apply primes80_are|]. now apply (sorted_primes i p Hi q HI).
  - intros [HQ HQP]. assert (HI : In q primes80) by (apply primes80_are; split; [exact HQ|]; apply primes80_are in HP; lia).
    now apply (sorted_primes i p Hi q HI).
Qed.
Lemma nth_prime_unique : forall i p q, nth_prime i p -> nth_prime i q -> p = q.
Proof.
  assert (X : forall i p q, nth_prime i p -> nth_prime i q -> p < q -> False).
  { intros i p q [HP [bp [ND1 [L1 I1]]]] [HQ [bq [ND2 [L2 I2]]]] HLT.
    assert (INC : incl (p :: bp) bq).
    { intros z [<-|HZ]; [apply I2; split; assumption|]. apply I1 in HZ. apply I2. split; [apply HZ|lia]. }
    assert (ND : NoDup (p :: bp)). { constructor; [|exact ND1]. intros HI. apply I1 in HI. lia. }
    pose proof (NoDup_incl_length ND INC). cbn in H. lia. }
  intros i p q HP HQ. destruct (Z.lt_trichotomy p q) as [H|[H|H]]; [|exact H|]; exfalso.
  - exact (X i p q HP HQ H).
  - exact (X i q p HQ HP H).
Qed.

(* tables *)
Definition table_is (k : nat) (b : Z) (off : nat) (t : list N) : bool :=
  forallb (entry_is k b) (combine (skipn off primes80) t) && (length t <=? length (skipn off primes80))%nat.
Lemma combine_nth_error : forall A B (l : list A) (t : list B) i b, nth_error t i = Some b -> (length t <= length l)%nat ->
  exists a, nth_error l i = Some a /\ In (a, b) (combine l t).
Proof.
  induction l as [|a l IH]; intros [|x t] i b Hi HL; try (destruct i; discriminate); try (cbn in HL; lia).
  destruct i as [|i].
  - cbn in Hi. injection Hi as ->. exists a. split; [reflexivity|now left].
  - cbn in Hi, HL. destruct (IH t i b Hi ltac:(lia)) as [a' [H1 H2]]. exists a'. split; [exact H1|now right].
Qed.
Lemma nth_error_skipn : forall A (l : list A) o i, nth_error (skipn o l) i = nth_error l (o + i).
Proof. induction l; intros [|o] i; try reflexivity; [now destruct i|]. cbn. apply IHl. Qed.
Lemma table_ok : forall k b off t, 0 <= b -> table_is (S k) b off t = true -> forall i n p x, nth_error t i = Some n -> nth_prime (off + i) p ->
  (0 <= x)%R -> (x ^ S k = IZR p)%R -> Int_part (frac_part x * IZR (2 ^ b)) = Z.of_N n.
Proof.
  intros k b off t HB HT i n p x Hi HP HX HR. unfold table_is in HT. apply andb_prop in HT. destruct HT as [HT HL]. apply Nat.leb_le in HL.
  rewrite forallb_forall in HT. destruct (combine_nth_error _ _ (skipn off primes80) t i n Hi HL) as [p' [H1 H2]].
  rewrite nth_error_skipn in H1. apply nth_prime_ok in H1. rewrite (nth_prime_unique _ _ _ HP H1) in HR.
  apply HT in H2. eapply entry_ok; eassumption.
Qed.
Lemma nth_prime_exists : forall i, (i < 80)%nat -> exists p, nth_prime i p.
Proof.
  intros i H. destruct (nth_error primes80 i) as [p|] eqn:E; [exists p; now apply nth_prime_ok|].
  apply nth_error_None in E. change (length primes80) with 80%nat in E. lia.
Qed.

Lemma sha256_cube_ok : forall i n p x, nth_error sha256_cube_roots i = Some n -> nth_prime i p -> (0 <= x)%R -> (x ^ 3 = IZR p)%R ->
  Int_part (frac_part x * IZR (2 ^ 32)) = Z.of_N n.
Proof. apply (table_ok 2 32 0); [lia|]. vm_compute. reflexivity. Qed.
Lemma sha224_cube_ok : forall i n p x, nth_error sha224_cube_roots i = Some n -> nth_prime i p -> (0 <= x)%R -> (x ^ 3 = IZR p)%R ->
  Int_part (frac_part x * IZR (2 ^ 32)) = Z.of_N n.
Proof. apply (table_ok 2 32 0); [lia|]. vm_compute. reflexivity. Qed.
Lemma sha512_cube_ok : forall i n p x, nth_error sha512_cube_roots i = Some n -> nth_prime i p -> (0 <= x)%R -> (x ^ 3 = IZR p)%R ->
  Int_part (frac_part x * IZR (2 ^ 64)) = Z.of_N n.
Proof. apply (table_ok 2 64 0); [lia|]. vm_compute. reflexivity. Qed.
Lemma sha256_square_ok : forall i n p x, nth_error sha256_square_roots i = Some n -> nth_prime i p -> (0 <= x)%R -> (x ^ 2 = IZR p)%R ->
  Int_part (frac_part x * IZR (2 ^ 32)) = Z.of_N n.
Proof. apply (table_ok 1 32 0); [lia|]. vm_compute. reflexivity. Qed.
Lemma sha512_square_ok : forall i n p x, nth_error sha512_square_roots i = Some n -> nth_prime i p -> (0 <= x)%R -> (x ^ 2 = IZR p)%R ->
  Int_part (frac_part x * IZR (2 ^ 64)) = Z.of_N n.
Proof. apply (table_ok 1 64 0); [lia|]. vm_compute. reflexivity. Qed.

(* SHA-224: the second 32 bits of the square roots of the 9th to 16th primes *)
Definition second_is (pn : Z * N) : bool :=
  let v := Z.sqrt (fst pn * 2 ^ 128) in root_is 2 64 (fst pn) v && (v mod 2 ^ 32 =? Z.of_N (snd pn)).
Lemma sha224_square_ok : forall i n p x, nth_error sha224_square_roots i = Some n -> nth_prime (8 + i) p -> (0 <= x)%R -> (x ^ 2 = IZR p)%R ->
  Int_part (frac_part (frac_part x * IZR (2 ^ 32)) * IZR (2 ^ 32)) = Z.of_N n.
Proof.
  assert (T : forallb second_is (combine (skipn 8 primes80) sha224_square_roots) = true) by (vm_compute; reflexivity).
  intros i n p x Hi HP HX HR. rewrite forallb_forall in T.
  destruct (combine_nth_error _ _ (skipn 8 primes80) sha224_square_roots i n Hi) as [p' [H1 H2]]; [cbn; lia|].
  rewrite nth_error_skipn in H1. apply nth_prime_ok in H1. rewrite (nth_prime_unique _ _ _ HP H1) in HR.
  apply T in H2. unfold second_is in H2. cbn [fst snd] in H2. apply andb_prop in H2. destruct H2 as [H2 H3]. apply Z.eqb_eq in H3.
  rewrite frac_frac by lia. rewrite <- H3. apply frac_bits; [lia|].
  rewrite Rmult_assoc, <- mult_IZR. change (2 ^ 32 * 2 ^ 32) with (2 ^ 64).
  apply (root_bounds 1 64 p'); try assumption; [lia|apply Z.sqrt_nonneg].
Qed.
(* SHA-1: integer parts of 2^30 times the square roots of 2, 3, 5, 10 *)
Lemma sha1_roots_ok : forall p n x, In (p, n) [(2, 0x5a827999); (3, 0x6ed9eba1); (5, 0x8f1bbcdc); (10, 0xca62c1d6)] ->
  (0 <= x)%R -> (x ^ 2 = IZR p)%R -> Int_part (x * IZR (2 ^ 30)) = n.
Proof.
  intros p n x HI HX HR. assert (B : root_is 2 30 p n = true /\ 0 <= n).
  { repeat (destruct HI as [HI|HI]; [injection HI as <- <-; split; [reflexivity|lia]|]). destruct HI. }
  apply Int_part_of. apply (root_bounds 1 30 p); try assumption; try apply B. lia.
Qed.
Lemma root_exists : forall k p, 0 < p -> exists x, (0 <= x)%R /\ (x ^ S k = IZR p)%R.
Proof.
  intros k p HP. apply IZR_lt in HP. exists (Rpower (IZR p) (/ INR (S k))). assert (P0 : (0 < Rpower (IZR p) (/ INR (S k)))%R) by apply exp_pos.
  split; [lra|]. rewrite <- Rpower_pow by exact P0. rewrite Rpower_mult. rewrite Rinv_l by (apply not_0_INR; lia). now apply Rpower_1.
Qed.
From Verif Require Import Spec Transform.
Open Scope Z_scope.
Lemma md5_T_ok : forall i n, nth_error md5_T i = Some n -> Int_part (4294967296 * Rabs (sin (INR (S i)))) = Z.of_N n.
Proof. exact md5_sines_ok. Qed.
Lemma sha1_round_ok : forall round h1 h2 h3 f k x, sha1_round_fun round h1 h2 h3 = Some (f, k) ->
  (0 <= x)%R -> (x ^ 2 = IZR (nth (round - 1)%nat [2; 3; 5; 10] 0)%Z)%R -> Int_part (x * IZR (2 ^ 30)) = Z.of_N k.
Proof.
  intros round h1 h2 h3 f k x H HX HR. apply (sha1_roots_ok (nth (round - 1) [2; 3; 5; 10] 0) (Z.of_N k) x); [|exact HX|exact HR].
  unfold sha1_round_fun in H. destruct round as [|[|[|[|[|round]]]]]; try discriminate; injection H as _ <-; cbn; auto 8.
Qed.
Lemma primes_and_roots : forall i k, (i < 80)%nat -> exists p x, nth_prime i p /\ (0 <= x)%R /\ (x ^ S k = IZR p)%R.
Proof.
  intros i k H. destruct (nth_prime_exists i H) as [p HP]. assert (P : 0 < p) by (destruct HP as [[] _]; lia).
  destruct (root_exists k p P) as [x HX]. exists p, x. split; [exact HP|exact HX].
Qed.
Lemma start_values :
  concat (map (le_bytes 4) md5_fixed_constants) =
    (map (fun i => 0x01 + 0x22 * N.of_nat i) (seq 0 8) ++ map (fun i => 0xfe - 0x22 * N.of_nat i) (seq 0 8))%N /\
  sha1_fixed_constants = md5_fixed_constants ++ [le_value (map (fun i => 0xf0 - 0x0f * N.of_nat i)%N (seq 0 4))].
Proof. vm_compute. split; reflexivity. Qed.
