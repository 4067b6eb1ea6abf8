(* Properties C50 and C51: two computations that give the same digest or the same HMAC.
   The words are defined in CollVocab.v; [lib_hash] in Vocab.v is what the library computes (C01 to C05). *)
From Coq Require Import Arith NArith ZArith List Bool Lia.
From Verif Require Import Words Spec Machine Vocab Context Hash CollVocab CollFacts Demo.
Import ListNotations.
Open Scope N_scope.

(* ---- C50: the same digest comes from the same message, or the two computations meet in the compression function *)
Theorem C50_calculate : forall a E1 E2 bp1 n1 hp1 k1 e1 s1 s1' bp2 n2 hp2 k2 e2 s2 s2',
  good_state s1 -> arg s1 (Some bp1) n1 -> arg s1 (Some hp1) k1 -> good_state s2 -> arg s2 (Some bp2) n2 -> arg s2 (Some hp2) k2 ->
  calculate E1 a (Some bp1) n1 (Some hp1) k1 e1 s1 = Done 1%Z s1' -> calculate E2 a (Some bp2) n2 (Some hp2) k2 e2 s2 = Done 1%Z s2' ->
  bytes_at s1' hp1 (digest_size a) = bytes_at s2' hp2 (digest_size a) ->
  bytes_at s1 bp1 n1 = bytes_at s2 bp2 n2 \/ same_digest_reason a (bytes_at s1 bp1 n1) (bytes_at s2 bp2 n2).
Proof. exact calculate_collision. Qed.
Print Assumptions C50_calculate.

(* two messages of 128 bytes with the same MD5 (Wang and Yu); the computations meet after the second block *)
Definition wang (x : bool) : list N :=
  be_bytes 128 (if x
    then 0xd131dd02c5e6eec4693d9a0698aff95c2fcab58712467eab4004583eb8fb7f8955ad340609f4b30283e488832571415a085125e8f7cdc99fd91dbdf280373c5bd8823e3156348f5bae6dacd436c919c6dd53e2b487da03fd02396306d248cda0e99f33420f577ee8ce54b67080a80d1ec69821bcb6a8839396f9652b6ff72a70
    else 0xd131dd02c5e6eec4693d9a0698aff95c2fcab50712467eab4004583eb8fb7f8955ad340609f4b30283e4888325f1415a085125e8f7cdc99fd91dbd7280373c5bd8823e3156348f5bae6dacd436c919c6dd53e23487da03fd02396306d248cda0e99f33420f577ee8ce54b67080280d1ec69821bcb6a8839396f965ab6ff72a70).
Definition wang_state (x : bool) : state :=
  mk_state [mk_cell true Heap (OBytes (wang x)); mk_cell true Heap (OBytes (repeat 0 16))] 0 [] [].
Example C50_example : forall x,
  good_state (wang_state x) /\ arg (wang_state x) (Some (0%nat, 0)) 128 /\ arg (wang_state x) (Some (1%nat, 0)) 16 /\
  seen (calculate (demo_env x x) MD5 (Some (0%nat, 0)) 128 (Some (1%nat, 0)) 16 true (wang_state x)) 1 16 =
    Some (1%Z, be_bytes 16 0x79054025255fb1a26e4bc422aef54eb4).
Proof.
  intros x. split.
  { assert (F : Forall is_byte (wang x)) by apply WordFacts.be_bytes_bytes. unfold wang_state. revert F. generalize (wang x). intros l F [|[|p]] o H; cbn in H.
    - injection H as <-. exact F.
    - injection H as <-. repeat constructor.
    - destruct p; discriminate. }
  split; [exists (wang x); split; [reflexivity|unfold wang; rewrite WordFacts.be_bytes_length; vm_compute; discriminate]|].
  split; [exists (repeat 0 16); split; [reflexivity|vm_compute; discriminate]|].
  destruct x; vm_compute; reflexivity.
Qed.
Example C50_where : wang true <> wang false /\
  chain MD5 (firstn 1 (message_blocks MD5 (wang true))) <> chain MD5 (firstn 1 (message_blocks MD5 (wang false))) /\
  chain MD5 (firstn 2 (message_blocks MD5 (wang true))) = chain MD5 (firstn 2 (message_blocks MD5 (wang false))).
Proof. split; [vm_compute; discriminate|]. split; vm_compute; [discriminate|reflexivity]. Qed.

(* ---- C51: the same for HMAC, down to the blocks that the keys become *)
Theorem C51_hmac : forall a E1 E2 kp1 kn1 bp1 n1 hp1 k1 e1 s1 s1' kp2 kn2 bp2 n2 hp2 k2 e2 s2 s2',
  good_state s1 -> arg s1 (Some kp1) kn1 -> arg s1 (Some bp1) n1 -> arg s1 (Some hp1) k1 ->
  good_state s2 -> arg s2 (Some kp2) kn2 -> arg s2 (Some bp2) n2 -> arg s2 (Some hp2) k2 ->
  calculate_hmac E1 a (Some kp1) kn1 (Some bp1) n1 (Some hp1) k1 e1 s1 = Done 1%Z s1' ->
  calculate_hmac E2 a (Some kp2) kn2 (Some bp2) n2 (Some hp2) k2 e2 s2 = Done 1%Z s2' ->
  bytes_at s1' hp1 (digest_size a) = bytes_at s2' hp2 (digest_size a) ->
  let key1 := bytes_at s1 kp1 kn1 in let m1 := bytes_at s1 bp1 n1 in let key2 := bytes_at s2 kp2 kn2 in let m2 := bytes_at s2 bp2 n2 in
  (hmac_key (lib_hash a) (N.to_nat (block_size a)) key1 = hmac_key (lib_hash a) (N.to_nat (block_size a)) key2 /\ m1 = m2) \/
  collision_within a (outer_input a key1 m1) (outer_input a key2 m2) \/
  same_digest_reason a (inner_input a key1 m1) (inner_input a key2 m2).
Proof. exact hmac_collision. Qed.
Print Assumptions C51_hmac.

(* and when keys become the same block *)
Theorem C51_keys : forall a k1 k2,
  hmac_key (lib_hash a) (N.to_nat (block_size a)) k1 = hmac_key (lib_hash a) (N.to_nat (block_size a)) k2 ->
  let short k := (length k <= N.to_nat (block_size a))%nat in
  (short k1 /\ short k2 /\ up_to_zeros k1 k2) \/
  (~ short k1 /\ short k2 /\ up_to_zeros (lib_hash a k1) k2) \/
  (short k1 /\ ~ short k2 /\ up_to_zeros k1 (lib_hash a k2)) \/
  (~ short k1 /\ ~ short k2 /\ (k1 = k2 \/ same_digest_reason a k1 k2)).
Proof. exact equal_keys. Qed.
Print Assumptions C51_keys.

(* the two messages as keys: the same HMAC of the message of two bytes *)
Definition wang_key_state (x : bool) : state :=
  mk_state [mk_cell true Heap (OBytes (wang x)); mk_cell true Heap (OBytes [104; 105]); mk_cell true Heap (OBytes (repeat 0 16))] 0 [] [].
Definition wang_hmac (x : bool) : option (Z * list N) :=
  seen (calculate_hmac (demo_env x x) MD5 (Some (0%nat, 0)) 128 (Some (1%nat, 0)) 2 (Some (2%nat, 0)) 16 true (wang_key_state x)) 2 16.
Example C51_example :
  (forall x, good_state (wang_key_state x) /\ arg (wang_key_state x) (Some (0%nat, 0)) 128 /\ arg (wang_key_state x) (Some (1%nat, 0)) 2 /\
             arg (wang_key_state x) (Some (2%nat, 0)) 16) /\
  wang_hmac true = Some (1%Z, be_bytes 16 0xd2bdcedc8cb52dfb1058a118bd5286ea) /\ wang_hmac true = wang_hmac false.
Proof.
  split.
  { intros x. split.
    { assert (F : Forall is_byte (wang x)) by apply WordFacts.be_bytes_bytes. unfold wang_key_state. revert F. generalize (wang x). intros l F [|[|[|p]]] o H; cbn in H.
      - injection H as <-. exact F.
      - injection H as <-. repeat constructor.
      - injection H as <-. repeat constructor.
      - destruct p; discriminate. }
    split; [exists (wang x); split; [reflexivity|unfold wang; rewrite WordFacts.be_bytes_length; vm_compute; discriminate]|].
    split; [exists [104; 105]; split; [reflexivity|vm_compute; discriminate]|exists (repeat 0 16); split; [reflexivity|vm_compute; discriminate]]. }
  split; vm_compute; reflexivity.
Qed.
(* short keys that differ in a zero at the end *)
Example C51_zeros : hmac_key md5 64 [1; 2] = hmac_key md5 64 [1; 2; 0] /\ up_to_zeros [1; 2] [1; 2; 0].
Proof. split; [reflexivity|]. exists 1%nat. now right. Qed.
