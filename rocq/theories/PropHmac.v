(* Properties C06, C14, C16-C19, C21, C28: the one-shot functions and HMAC.
   The model is [calculate] and [calculate_hmac]; the specification is in Spec.v and Vocab.v. *)
From Coq Require Import String Ascii NArith ZArith List Bool.
From Verif Require Import Words Spec Machine Vocab Context Hash LibTheorems Demo Witness.
Import ListNotations.
Open Scope N_scope.

(* ---- C06: libhmac_X_calculate_hmac is HMAC of RFC 2104 ---- *)

Theorem C06_hmac : forall a E key key_size buffer size hmac hmac_size e s,
  good_state s -> arg s key key_size -> arg s buffer size -> arg s hmac hmac_size -> a <> SHA512 ->
  exists r s', calculate_hmac E a key key_size buffer size hmac hmac_size e s = Done r s' /\
  ((r = 1%Z /\ hmac_args E a key key_size buffer size hmac hmac_size /\ all_allocs_ok E s s' /\
    exists kp bp hp, key = Some kp /\ buffer = Some bp /\ hmac = Some hp /\
    bytes_at s' hp (digest_size a) = spec_hmac a (bytes_at s kp key_size) (bytes_at s bp size))
   \/ (r = (-1)%Z /\ (some_alloc_failed E s s' \/ ~ hmac_args E a key key_size buffer size hmac hmac_size))).
Proof. exact (fun a E k kn b n h hn e s G HK HB HH HA => hmac_spec a E k kn b n h hn e s G HK HB HH (fun X => False_ind _ (HA X))). Qed.
Print Assumptions C06_hmac.

(* SHA-512: the full property has no bound on the sizes; with a 64-bit size_t it is false for keys
   or messages of about 2^61 bytes and more (see C05); C06_hmac_total says what is computed then. *)
Theorem C06_hmac_sha512_partial : forall E key key_size buffer size hmac hmac_size e s,
  good_state s -> arg s key key_size -> arg s buffer size -> arg s hmac hmac_size -> key_size < 2 ^ 61 -> 128 + size < 2 ^ 61 ->
  exists r s', calculate_hmac E SHA512 key key_size buffer size hmac hmac_size e s = Done r s' /\
  ((r = 1%Z /\ hmac_args E SHA512 key key_size buffer size hmac hmac_size /\ all_allocs_ok E s s' /\
    exists kp bp hp, key = Some kp /\ buffer = Some bp /\ hmac = Some hp /\
    bytes_at s' hp (digest_size SHA512) = spec_hmac SHA512 (bytes_at s kp key_size) (bytes_at s bp size))
   \/ (r = (-1)%Z /\ (some_alloc_failed E s s' \/ ~ hmac_args E SHA512 key key_size buffer size hmac hmac_size))).
Proof. exact (fun E k kn b n h hn e s G HK HB HH H1 H2 => hmac_spec SHA512 E k kn b n h hn e s G HK HB HH (fun _ => or_intror (conj H1 H2))). Qed.
Print Assumptions C06_hmac_sha512_partial.

Theorem C06_hmac_sha512_32bit : forall E key key_size buffer size hmac hmac_size e s,
  good_state s -> arg s key key_size -> arg s buffer size -> arg s hmac hmac_size -> plat64 E = false ->
  exists r s', calculate_hmac E SHA512 key key_size buffer size hmac hmac_size e s = Done r s' /\
  ((r = 1%Z /\ hmac_args E SHA512 key key_size buffer size hmac hmac_size /\ all_allocs_ok E s s' /\
    exists kp bp hp, key = Some kp /\ buffer = Some bp /\ hmac = Some hp /\
    bytes_at s' hp (digest_size SHA512) = spec_hmac SHA512 (bytes_at s kp key_size) (bytes_at s bp size))
   \/ (r = (-1)%Z /\ (some_alloc_failed E s s' \/ ~ hmac_args E SHA512 key key_size buffer size hmac hmac_size))).
Proof. exact (fun E k kn b n h hn e s G HK HB HH HP => hmac_spec SHA512 E k kn b n h hn e s G HK HB HH (fun _ => or_introl HP)). Qed.
Print Assumptions C06_hmac_sha512_32bit.

(* every algorithm, every size; lib_hmac is HMAC over the hash of C01-C04 or C05_sha512_total *)
Theorem C06_hmac_total : forall a E key key_size buffer size hmac hmac_size e s,
  good_state s -> arg s key key_size -> arg s buffer size -> arg s hmac hmac_size ->
  exists r s', calculate_hmac E a key key_size buffer size hmac hmac_size e s = Done r s' /\
  ((r = 1%Z /\ hmac_args E a key key_size buffer size hmac hmac_size /\ all_allocs_ok E s s' /\
    exists kp bp hp, key = Some kp /\ buffer = Some bp /\ hmac = Some hp /\
    bytes_at s' hp (digest_size a) = lib_hmac a (bytes_at s kp key_size) (bytes_at s bp size))
   \/ (r = (-1)%Z /\ (some_alloc_failed E s s' \/ ~ hmac_args E a key key_size buffer size hmac hmac_size))).
Proof. exact hmac_lib. Qed.
Print Assumptions C06_hmac_total.

(* RFC 2202 case 1 through the model *)
Example C06_example_MD5 : forall b, good_state demo_state /\ arg demo_state (Some (2%nat, 0)) 16 /\
  arg demo_state (Some (3%nat, 0)) 8 /\ arg demo_state (Some (1%nat, 3)) 70 /\
  seen (calculate_hmac (demo_env b b) MD5 (Some (2%nat, 0)) 16 (Some (3%nat, 0)) 8 (Some (1%nat, 0)) 70 true demo_state) 1 16
    = Some (1%Z, be_bytes 16 0x9294727a3638bb1c13f48ef8158bfc9d).
Proof.
  intros b. split; [exact demo_good|]. split; [demo_arg|]. split; [demo_arg|]. split; [demo_arg|].
  destruct b; vm_compute; reflexivity.
Qed.

(* RFC 2202 case 1 through the model *)
Example C06_example_SHA1 : forall b, good_state demo_state /\ arg demo_state (Some (2%nat, 0)) 20 /\
  arg demo_state (Some (3%nat, 0)) 8 /\ arg demo_state (Some (1%nat, 3)) 70 /\
  seen (calculate_hmac (demo_env b b) SHA1 (Some (2%nat, 0)) 20 (Some (3%nat, 0)) 8 (Some (1%nat, 0)) 70 true demo_state) 1 20
    = Some (1%Z, be_bytes 20 0xb617318655057264e28bc0b6fb378c8ef146be00).
Proof.
  intros b. split; [exact demo_good|]. split; [demo_arg|]. split; [demo_arg|]. split; [demo_arg|].
  destruct b; vm_compute; reflexivity.
Qed.

(* RFC 4231 case 1 through the model *)
Example C06_example_SHA224 : good_state demo_state /\ arg demo_state (Some (2%nat, 0)) 20 /\
  arg demo_state (Some (3%nat, 0)) 8 /\ arg demo_state (Some (1%nat, 3)) 70 /\
  seen (calculate_hmac (demo_env false true) SHA224 (Some (2%nat, 0)) 20 (Some (3%nat, 0)) 8 (Some (1%nat, 0)) 70 true demo_state) 1 28
    = Some (1%Z, be_bytes 28 0x896fb1128abbdf196832107cd49df33f47b4b1169912ba4f53684b22).
Proof.
  split; [exact demo_good|]. split; [demo_arg|]. split; [demo_arg|]. split; [demo_arg|].
  vm_compute; reflexivity.
Qed.

(* RFC 4231 case 1 through the model *)
Example C06_example_SHA256 : good_state demo_state /\ arg demo_state (Some (2%nat, 0)) 20 /\
  arg demo_state (Some (3%nat, 0)) 8 /\ arg demo_state (Some (1%nat, 3)) 70 /\
  seen (calculate_hmac (demo_env true false) SHA256 (Some (2%nat, 0)) 20 (Some (3%nat, 0)) 8 (Some (1%nat, 0)) 70 true demo_state) 1 32
    = Some (1%Z, be_bytes 32 0xb0344c61d8db38535ca8afceaf0bf12b881dc200c9833da726e9376c2e32cff7).
Proof.
  split; [exact demo_good|]. split; [demo_arg|]. split; [demo_arg|]. split; [demo_arg|].
  vm_compute; reflexivity.
Qed.

(* RFC 4231 case 1 through the model *)
Example C06_example_SHA512 : good_state demo_state /\ arg demo_state (Some (2%nat, 0)) 20 /\
  arg demo_state (Some (3%nat, 0)) 8 /\ arg demo_state (Some (1%nat, 3)) 70 /\
  seen (calculate_hmac (demo_env true true) SHA512 (Some (2%nat, 0)) 20 (Some (3%nat, 0)) 8 (Some (1%nat, 0)) 70 true demo_state) 1 64
    = Some (1%Z, be_bytes 64 0x87aa7cdea5ef619d4ff0b4241a1d6cb02379f4e2ce4ec2787ad0b30545e17cdedaa833b7d6b8a702038b274eaea3f4e4be9d914eeb61f1702e696c203a126854).
Proof.
  split; [exact demo_good|]. split; [demo_arg|]. split; [demo_arg|]. split; [demo_arg|].
  vm_compute; reflexivity.
Qed.

(* RFC 2202 case 6, a key longer than a block *)
Example C06_example_long : forall b,
  seen (calculate_hmac (demo_env b b) MD5 (Some (4%nat, 0)) 80 (Some (5%nat, 0)) 54 (Some (1%nat, 0)) 70 true demo_state) 1 16
    = Some (1%Z, be_bytes 16 0x6b1ab7fe4bd7bf8f0b62e6ce61b9d0cd).
Proof. intros b. destruct b; vm_compute; reflexivity. Qed.

(* ---- C14: the output buffer may overlap the inputs ---- *)

(* The theorems C01-C06 say nothing about where the buffers are; here the overlap is spelled out: the output range meets
   the message (or key) range.  The digest is that of the bytes before the call. *)
Theorem C14_calculate_in_place : forall a E bp size hp hash_size e s,
  good_state s -> arg s (Some bp) size -> arg s (Some hp) hash_size ->
  fst hp = fst bp -> snd hp < snd bp + size -> snd bp < snd hp + digest_size a ->
  hash_args E a (Some bp) size (Some hp) hash_size -> (forall i, alloc_ok E i = true) ->
  exists s', calculate E a (Some bp) size (Some hp) hash_size e s = Done 1%Z s' /\
  bytes_at s' hp (digest_size a) = lib_hash a (bytes_at s bp size).
Proof. exact calculate_overlap. Qed.
Print Assumptions C14_calculate_in_place.

Theorem C14_hmac_in_place : forall a E kp key_size bp size hp hmac_size e s,
  good_state s -> arg s (Some kp) key_size -> arg s (Some bp) size -> arg s (Some hp) hmac_size ->
  (fst hp = fst bp /\ snd hp < snd bp + size /\ snd bp < snd hp + digest_size a) \/
  (fst hp = fst kp /\ snd hp < snd kp + key_size /\ snd kp < snd hp + digest_size a) ->
  hmac_args E a (Some kp) key_size (Some bp) size (Some hp) hmac_size -> (forall i, alloc_ok E i = true) ->
  exists s', calculate_hmac E a (Some kp) key_size (Some bp) size (Some hp) hmac_size e s = Done 1%Z s' /\
  bytes_at s' hp (digest_size a) = lib_hmac a (bytes_at s kp key_size) (bytes_at s bp size).
Proof. exact hmac_overlap. Qed.
Print Assumptions C14_hmac_in_place.

(* hashing the 200 bytes of array 6 over their own beginning; RFC 2202 case 6 with the output over the key *)
Example C14_example : forall b,
  seen (calculate (demo_env b b) MD5 (Some (6%nat, 0)) 200 (Some (6%nat, 0)) 100 true demo_state) 6 16
    = Some (1%Z, be_bytes 16 0xd96c89b9da43f6903ceaa14a7166a22e) /\
  seen (calculate_hmac (demo_env b b) MD5 (Some (4%nat, 0)) 80 (Some (5%nat, 0)) 54 (Some (4%nat, 0)) 32 true demo_state) 4 16
    = Some (1%Z, be_bytes 16 0x6b1ab7fe4bd7bf8f0b62e6ce61b9d0cd).
Proof. intros b. destruct b; (split; vm_compute; reflexivity). Qed.

(* ---- C15 (one-shot part), C16: nothing leaks; a failed allocation is reported ---- *)

Theorem C16_calculate_alloc : forall E a buffer size hash hash_size e s,
  good_state s -> arg s buffer size -> arg s hash hash_size ->
  exists r s', calculate E a buffer size hash hash_size e s = Done r s' /\ no_leak s s' /\
  (some_alloc_failed E s s' -> r = (-1)%Z).
Proof. exact calculate_no_leak. Qed.
Print Assumptions C16_calculate_alloc.

Theorem C16_hmac_alloc : forall E a key key_size buffer size hmac hmac_size e s,
  good_state s -> arg s key key_size -> arg s buffer size -> arg s hmac hmac_size ->
  exists r s', calculate_hmac E a key key_size buffer size hmac hmac_size e s = Done r s' /\ no_leak s s' /\
  (some_alloc_failed E s s' -> r = (-1)%Z).
Proof. exact hmac_no_leak. Qed.
Print Assumptions C16_hmac_alloc.

(* each of the six allocations of a call with a long key can fail; with the seventh (never made) the call succeeds *)
Example C16_example : forall b,
  map (fun n => result (calculate_hmac (demo_fail b b n) MD5 (Some (4%nat, 0)) 131 (Some (5%nat, 0)) 54 (Some (1%nat, 0)) 16 true demo_state))
      (seq 0 7) = repeat (Some (-1)%Z) 6 ++ [Some 1%Z].
Proof. intros b. destruct b; vm_compute; reflexivity. Qed.

(* ---- C17: a failing calculate_hmac leaves the output buffer alone: false ---- *)

(* when it fails, either nothing that existed changed, or only the output buffer did and holds the inner
   hash H( K xor ipad, text ) ; the latter only after a failed allocation with valid arguments *)
Theorem C17_failing_hmac_partial : forall E a key key_size buffer size hmac hmac_size e s r s',
  good_state s -> arg s key key_size -> arg s buffer size -> arg s hmac hmac_size ->
  calculate_hmac E a key key_size buffer size hmac hmac_size e s = Done r s' -> r = (-1)%Z ->
  unchanged s s' \/
  (hmac_args E a key key_size buffer size hmac hmac_size /\ some_alloc_failed E s s' /\
   exists kp bp hp, key = Some kp /\ buffer = Some bp /\ hmac = Some hp /\ unchanged_but s s' hp (digest_size a) /\
   bytes_at s' hp (digest_size a) =
     lib_hash a (map (N.lxor 0x36) (hmac_key (lib_hash a) (N.to_nat (block_size a)) (bytes_at s kp key_size)) ++ bytes_at s bp size)).
Proof. exact hmac_failing. Qed.
Print Assumptions C17_failing_hmac_partial.

(* the witness: the allocation of the second context fails; the inner hash is in the output buffer *)
Theorem C17_failing_hmac_refuted : forall b, exists E a key buffer hmac s s',
  unrolled E = b /\ plat64 E = b /\ good_state s /\ arg s (Some key) 20 /\ arg s (Some buffer) 8 /\ arg s (Some hmac) 16 /\
  calculate_hmac E a (Some key) 20 (Some buffer) 8 (Some hmac) 16 true s = Done (-1)%Z s' /\
  bytes_at s hmac 16 <> bytes_at s' hmac 16 /\
  bytes_at s' hmac 16 = spec_hash a (map (N.lxor 0x36) (bytes_at s key 20 ++ repeat 0 44) ++ bytes_at s buffer 8).
Proof. exact failing_hmac_witness. Qed.
Print Assumptions C17_failing_hmac_refuted.

(* ---- C18, C19: heap memory used for the key and pads, and the contexts ---- *)

(* C18: every byte array calculate_hmac allocated holds zeros when it returns, whatever it returns (freed cells
   keep their last contents in the model) *)
Theorem C18_hmac_heap_cleared : forall E a key key_size buffer size hmac hmac_size e s r s',
  good_state s -> arg s key key_size -> arg s buffer size -> arg s hmac hmac_size ->
  calculate_hmac E a key key_size buffer size hmac hmac_size e s = Done r s' ->
  forall p c l, (length (mem s) <= p)%nat -> nth_error (mem s') p = Some c -> knd c = Heap -> content c = OBytes l -> Forall (eq 0) l.
Proof. exact (fun E a k kn b n h hn e s r s' G HK HB HH HR => proj1 (hmac_heap E a k kn b n h hn e s r s' G HK HB HH HR)). Qed.
Print Assumptions C18_hmac_heap_cleared.

(* C19, for calls that succeed: the contexts are zero as well.  Missing: calls that fail, see C19_context_refuted *)
Theorem C19_hmac_contexts_cleared_partial : forall E a key key_size buffer size hmac hmac_size e s s',
  good_state s -> arg s key key_size -> arg s buffer size -> arg s hmac hmac_size ->
  calculate_hmac E a key key_size buffer size hmac hmac_size e s = Done 1%Z s' ->
  forall p c, (length (mem s) <= p)%nat -> nth_error (mem s') p = Some c -> knd c = Heap -> zero_cell c.
Proof. exact (fun E a k kn b n h hn e s s' G HK HB HH HR => proj2 (hmac_heap E a k kn b n h hn e s 1%Z s' G HK HB HH HR) eq_refl). Qed.
Print Assumptions C19_hmac_contexts_cleared_partial.

(* what is left in memory by a successful call: three arrays and three contexts, and the stack array *)
Example C18_example : forall b,
  let s' := final (calculate_hmac (demo_env b b) MD5 (Some (4%nat, 0)) 131 (Some (5%nat, 0)) 54 (Some (1%nat, 0)) 16 true demo_state) in
  map knd (skipn 7 (mem s')) = [Stack; Heap; Heap; Heap; Heap; Heap; Heap] /\
  map (fun c => match content c with OBytes l => forallb (N.eqb 0) l | OCtx _ x => forallb (N.eqb 0) (c_hash x ++ c_block x) | OPtr _ => true end)
      (skipn 8 (mem s')) = repeat true 6.
Proof. intros b. destruct b; vm_compute; repeat split. Qed.

(* a NULL message buffer makes the call fail after the inner pad was absorbed: the freed context still holds
   the chaining value of H( K xor ipad ... ), enough to continue a keyed inner hash *)
Theorem C19_context_refuted : forall b, exists E key hmac s s',
  unrolled E = b /\ plat64 E = b /\ (forall i, alloc_ok E i = true) /\ good_state s /\ arg s (Some key) 20 /\ arg s (Some hmac) 20 /\
  calculate_hmac E SHA1 (Some key) 20 None 0 (Some hmac) 20 true s = Done (-1)%Z s' /\
  exists p x, (length (mem s) <= p)%nat /\ nth_error (mem s') p = Some (mk_cell false Heap (OCtx SHA1 x)) /\
  c_hash x = let '(a, b, c, d, e) := sha1_compress sha1_iv (map (N.lxor 0x36) (bytes_at s key 20 ++ repeat 0 44)) in [a; b; c; d; e].
Proof. exact null_message_witness. Qed.
Print Assumptions C19_context_refuted.

(* ---- C21: the local array with the digest of a long key: not cleared ---- *)

(* exactly what is left: after every successful call with a key longer than a block the stack array still
   holds the hash of the key, which is as good as the key *)
Theorem C21_key_hash_refuted : forall E a kp key_size bp size hp hmac_size e s s',
  good_state s -> arg s (Some kp) key_size -> arg s (Some bp) size -> arg s (Some hp) hmac_size ->
  calculate_hmac E a (Some kp) key_size (Some bp) size (Some hp) hmac_size e s = Done 1%Z s' ->
  block_size a < key_size ->
  nth_error (mem s') (length (mem s)) = Some (mk_cell false Stack (OBytes (lib_hash a (bytes_at s kp key_size)))).
Proof. exact hmac_key_hash. Qed.
Print Assumptions C21_key_hash_refuted.

Example C21_example : forall b,
  let o := calculate_hmac (demo_env b b) MD5 (Some (4%nat, 0)) 131 (Some (5%nat, 0)) 54 (Some (1%nat, 0)) 16 true demo_state in
  result o = Some 1%Z /\ block_size MD5 < 131 /\
  nth_error (mem (final o)) 7 = Some (mk_cell false Stack (OBytes (md5 (repeat 0xaa 131)))) /\
  md5 (repeat 0xaa 131) <> repeat 0 16.
Proof. intros b. destruct b; vm_compute; repeat split; discriminate. Qed.

(* ---- C28: key normalisation ---- *)

Theorem C28_key_zero_padding : forall E a kp key_size bp size hp hmac_size e s s1 E2 kp2 key_size2 bp2 size2 hp2 hmac_size2 e2 s2 s2' z,
  good_state s -> arg s (Some kp) key_size -> arg s (Some bp) size -> arg s (Some hp) hmac_size ->
  good_state s2 -> arg s2 (Some kp2) key_size2 -> arg s2 (Some bp2) size2 -> arg s2 (Some hp2) hmac_size2 ->
  calculate_hmac E a (Some kp) key_size (Some bp) size (Some hp) hmac_size e s = Done 1%Z s1 ->
  calculate_hmac E2 a (Some kp2) key_size2 (Some bp2) size2 (Some hp2) hmac_size2 e2 s2 = Done 1%Z s2' ->
  key_size2 <= block_size a -> bytes_at s2 kp2 key_size2 = bytes_at s kp key_size ++ repeat 0 z ->
  bytes_at s2 bp2 size2 = bytes_at s bp size ->
  bytes_at s1 hp (digest_size a) = bytes_at s2' hp2 (digest_size a).
Proof. exact hmac_padded_key. Qed.
Print Assumptions C28_key_zero_padding.

Theorem C28_long_key : forall E a kp key_size bp size hp hmac_size e s s1 E2 kp2 bp2 size2 hp2 hmac_size2 e2 s2 s2',
  good_state s -> arg s (Some kp) key_size -> arg s (Some bp) size -> arg s (Some hp) hmac_size ->
  good_state s2 -> arg s2 (Some kp2) (digest_size a) -> arg s2 (Some bp2) size2 -> arg s2 (Some hp2) hmac_size2 ->
  calculate_hmac E a (Some kp) key_size (Some bp) size (Some hp) hmac_size e s = Done 1%Z s1 ->
  calculate_hmac E2 a (Some kp2) (digest_size a) (Some bp2) size2 (Some hp2) hmac_size2 e2 s2 = Done 1%Z s2' ->
  block_size a < key_size -> bytes_at s2 kp2 (digest_size a) = lib_hash a (bytes_at s kp key_size) ->
  bytes_at s2 bp2 size2 = bytes_at s bp size ->
  bytes_at s1 hp (digest_size a) = bytes_at s2' hp2 (digest_size a).
Proof. exact hmac_long_key. Qed.
Print Assumptions C28_long_key.

(* keys "ab" and "ab" followed by 5 zero bytes; a key of 131 bytes and its MD5 *)
Definition C28_state : state := mk_state
  [ array (text "ab" ++ repeat 0 5); array (repeat 0 64); array (text "what do ya want for nothing?");
    array (repeat 0xaa 131); array (md5 (repeat 0xaa 131)) ] 0 [] [].
Example C28_example : forall b,
  let f k n := seen (calculate_hmac (demo_env b b) MD5 (Some k) n (Some (2%nat, 0)) 28 (Some (1%nat, 0)) 16 true C28_state) 1 16 in
  f (0%nat, 0) 2 = f (0%nat, 0) 7 /\ f (3%nat, 0) 131 = f (4%nat, 0) 16 /\ f (0%nat, 0) 2 <> f (3%nat, 0) 131 /\
  option_map fst (f (0%nat, 0) 2) = Some 1%Z /\ option_map fst (f (3%nat, 0) 131) = Some 1%Z.
Proof. intros b. destruct b; vm_compute; repeat split; discriminate. Qed.
