(* The model once more, with a record of what it does: which places are read and written, which way every condition goes,
   which memory is asked for and given back, and which blocks are processed.  The functions compute the same as those of
   Transform.v, Context.v and Hash.v (theorems C44_same_function_* in PropTrace.v); line numbers are those given there.

   A place is named by object and position, not by value.  Reads within one statement are recorded once for each place,
   where the model reads it; C leaves their order open anyway.  The result of memory_copy and memory_set is compared with
   NULL at every call; this condition is recorded by the calls themselves (MemoryCopied, MemorySet), because it is never
   true. *)
From Coq Require Import Arith NArith ZArith List Bool.
From Verif Require Import Words Tables Transform Machine Context Hash.
Import ListNotations.
Open Scope N_scope.

(* members of the context structure, libhmac_md5_context.h:72-86 and the same lines of the others *)
Inductive member : Type := MCount | MHash | MBoff | MBlock.
(* local arrays of transform: hash_values, values_32bit / values_64bit *)
Inductive localvar : Type := LHash | LValues.
(* constant tables *)
Inductive table : Type := TSines | TShifts | TIndex | TRoots | TStart.
Inductive place : Type :=
| PBytes (cell : nat) (offset : N)
| PMember (cell : nat) (m : member) (index : N)
| PWhole (cell : nat)                              (* a whole context structure *)
| PLocal (v : localvar) (index : nat)
| PTable (t : table) (index : nat).
Inductive event : Type :=
| Read (p : place)
| Write (p : place)
| Condition (b : bool)                             (* of if, while or for *)
| MemoryCopied (dst src : place) (n : N)           (* n elements *)
| MemorySet (dst : place) (n : N)
| MallocBytes (n : N)
| MallocContext (a : algid)
| Freed (cell : nat)
| ErrorSet (k : err)
| BlockDone (a : algid).                           (* one block processed *)

(* ------------------------------------------------------------------ steps on local arrays *)

Definition OT (A : Type) : Type := option (list event * A).
Definition oret {A} (a : A) : OT A := Some ([], a).
Definition otbind {A B} (m : OT A) (f : A -> OT B) : OT B :=
  match m with
  | Some (t, a) => match f a with Some (t', b) => Some (t ++ t', b) | None => None end
  | None => None
  end.
Notation "x <<- m ; k" := (otbind m (fun x => k)) (at level 61, m at next level, right associativity).
Definition oemit (e : event) : OT unit := Some ([e], tt).
(* the way a condition goes *)
Definition ocond (b : bool) : OT bool := _ <<- oemit (Condition b); oret b.
(* array[ i ]; array[ i ] = v; array[ i ] = f( array[ i ] ) *)
Definition tget {A} (at_ : nat -> place) (l : list A) (i : nat) : OT A :=
  _ <<- oemit (Read (at_ i)); match aget l i with Some x => oret x | None => None end.
Definition tset {A} (at_ : nat -> place) (l : list A) (i : nat) (v : A) : OT (list A) :=
  _ <<- oemit (Write (at_ i)); match aset l i v with Some l' => oret l' | None => None end.
Definition tmod {A} (at_ : nat -> place) (l : list A) (i : nat) (f : A -> A) : OT (list A) :=
  x <<- tget at_ l i; tset at_ l i (f x).
(* statements written out one after the other *)
Fixpoint tfold {A B} (f : A -> B -> OT A) (l : list B) (a : A) : OT A :=
  match l with
  | [] => oret a
  | b :: t => a' <<- f a b; tfold f t a'
  end.
(* a for loop over these values of its counter *)
Fixpoint tloop {A B} (f : A -> B -> OT A) (l : list B) (a : A) : OT A :=
  match l with
  | [] => _ <<- oemit (Condition false); oret a
  | b :: t => _ <<- oemit (Condition true); a' <<- f a b; tloop f t a'
  end.

Definition hv_at : nat -> place := PLocal LHash.
Definition values_at : nat -> place := PLocal LValues.

(* Transform.v:bget; [base] gives the place of each byte of the buffer *)
Definition t_bget (base : N -> place) (buf : list N) (off : N) : OT N :=
  _ <<- oemit (Read (base off)); match bget buf off with Some b => oret b | None => None end.
(* Transform.v:copy_to_uint *)
Definition t_copy_to_uint (w : N) (order : list N) (base : N -> place) (buf : list N) (off : N) : OT N :=
  match order with
  | [] => None
  | k :: rest =>
      v <<- t_bget base buf (off + k);
      tfold (fun v k => b <<- t_bget base buf (off + k); oret (N.lor (ushl w v 8) b)) rest v
  end.
(* Transform.v:copy_16x *)
Definition t_copy_16x (w : N) (order : list N) (table : list nat) (base : N -> place) (buf : list N) (off : N) (values : list N)
  : OT (list N) :=
  tfold (fun vals i => v <<- t_copy_to_uint w order base buf (off + (w / 8) * N.of_nat i); tset values_at vals i v) table values.
(* Transform.v:copy_loop *)
Definition t_copy_loop (w : N) (order : list N) (base : N -> place) (buf : list N) (off : N) (values : list N) : OT (N * list N) :=
  tloop (fun st i =>
           let '(off, vals) := st in
           v <<- t_copy_to_uint w order base buf off;
           vals' <<- tset values_at vals i v;
           oret (off + w / 8, vals'))
        (seq 0 16) (off, values).
(* Transform.v:add_hash_values; a loop in the looped build *)
Definition t_add_hash_values (unrolled : bool) (p : nat) (w : N) (n : nat) (ctx_hash hv : list N) : OT (list N) :=
  (if unrolled then tfold else tloop)
    (fun ch i => x <<- tget hv_at hv i; tmod (fun i => PMember p MHash (N.of_nat i)) ch i (fun y => uadd w y x)) (seq 0 n) ctx_hash.

(* the conditions block_index < a, < b, < c of the looped rounds, up to the first that holds *)
Definition t_round (i a b c : nat) : OT nat :=
  x <<- ocond (Nat.ltb i a);
  if x then oret 1%nat else
  x <<- ocond (Nat.ltb i b);
  if x then oret 2%nat else
  x <<- ocond (Nat.ltb i c);
  if x then oret 3%nat else oret 4%nat.

(* Transform.v:md5_macro *)
Definition t_md5_macro (values hv : list N) (inv : nat * nat * (nat * nat * nat * nat) * nat) : OT (list N) :=
  let '(round, vi, (i0, i1, i2, i3), bi) := inv in
  h1 <<- tget hv_at hv i1; h2 <<- tget hv_at hv i2; h3 <<- tget hv_at hv i3;
  f <<- match md5_round_fun round h1 h2 h3 with Some f => oret f | None => None end;
  hv <<- tmod hv_at hv i0 (fun x => uadd 32 x f);
  v <<- tget values_at values vi;
  hv <<- tmod hv_at hv i0 (fun x => uadd 32 x v);
  t <<- tget (PTable TSines) md5_sines bi;
  hv <<- tmod hv_at hv i0 (fun x => uadd 32 x t);
  s <<- tget (PTable TShifts) md5_bit_shifts bi;
  hv <<- tmod hv_at hv i0 (fun x => rotl 32 x (N.of_nat s));
  h1 <<- tget hv_at hv i1;
  tmod hv_at hv i0 (fun x => uadd 32 x h1).
(* Transform.v:md5_loop_step *)
Definition t_md5_loop_step (values hv : list N) (bi : nat) : OT (list N) :=
  h1 <<- tget hv_at hv 1; h2 <<- tget hv_at hv 2; h3 <<- tget hv_at hv 3;
  round <<- t_round bi 16 32 48;
  f <<- match md5_round_fun round h1 h2 h3 with Some f => oret f | None => None end;
  hv <<- tmod hv_at hv 0 (fun x => uadd 32 x f);
  vi <<- tget (PTable TIndex) md5_values_32bit_index bi;
  v <<- tget values_at values vi;
  hv <<- tmod hv_at hv 0 (fun x => uadd 32 x v);
  t <<- tget (PTable TSines) md5_sines bi;
  hv <<- tmod hv_at hv 0 (fun x => uadd 32 x t);
  s <<- tget (PTable TShifts) md5_bit_shifts bi;
  hv <<- tmod hv_at hv 0 (fun x => rotl 32 x (N.of_nat s));
  hash_value <<- tget hv_at hv 3;
  x <<- tget hv_at hv 2; hv <<- tset hv_at hv 3 x;
  x <<- tget hv_at hv 1; hv <<- tset hv_at hv 2 x;
  x <<- tget hv_at hv 0; hv <<- tmod hv_at hv 1 (fun y => uadd 32 y x);
  tset hv_at hv 0 hash_value.
(* Transform.v:md5_block; p is the context *)
Definition t_md5_block (unrolled : bool) (p : nat) (base : N -> place) (buf : list N) (off : N) (ctx_hash values : list N) : OT block_result :=
  _ <<- oemit (MemoryCopied (hv_at 0) (PMember p MHash 0) 4);
  let hv := ctx_hash in
  if unrolled then
    values <<- t_copy_16x 32 order_le32 copy_16x_uint32_little base buf off values;
    hv <<- tfold (t_md5_macro values) md5_unfolded hv;
    ctx_hash <<- t_add_hash_values true p 32 4 ctx_hash hv;
    oret (off + 64, ctx_hash, hv, values)
  else
    st <<- t_copy_loop 32 order_le32 base buf off values;
    let '(off, values) := st in
    hv <<- tloop (t_md5_loop_step values) (seq 0 64) hv;
    ctx_hash <<- t_add_hash_values false p 32 4 ctx_hash hv;
    oret (off, ctx_hash, hv, values).

(* Transform.v:sha1_extend *)
Definition t_sha1_extend (values : list N) (i : nat) : OT (list N) :=
  if Nat.ltb i 16 then None else
  a <<- tget values_at values (i - 3); b <<- tget values_at values (i - 8); c <<- tget values_at values (i - 14); d <<- tget values_at values (i - 16);
  values <<- tset values_at values i (N.lxor (N.lxor (N.lxor a b) c) d);
  tmod values_at values i (fun x => rotl 32 x 1).
(* Transform.v:sha1_macro *)
Definition t_sha1_macro (values hv : list N) (inv : nat * nat * (nat * nat * nat * nat * nat)) : OT (list N) :=
  let '(round, vi, (i0, i1, i2, i3, i4)) := inv in
  h1 <<- tget hv_at hv i1; h2 <<- tget hv_at hv i2; h3 <<- tget hv_at hv i3;
  fk <<- match sha1_round_fun round h1 h2 h3 with Some f => oret f | None => None end;
  hv <<- tmod hv_at hv i4 (fun x => uadd 32 x (fst fk));
  hv <<- tmod hv_at hv i4 (fun x => uadd 32 x (snd fk));
  h0 <<- tget hv_at hv i0;
  hv <<- tmod hv_at hv i4 (fun x => uadd 32 x (rotl 32 h0 5));
  v <<- tget values_at values vi;
  hv <<- tmod hv_at hv i4 (fun x => uadd 32 x v);
  tmod hv_at hv i1 (fun x => rotl 32 x 30).
(* Transform.v:sha1_loop_step *)
Definition t_sha1_loop_step (values hv : list N) (vi : nat) : OT (list N) :=
  h1 <<- tget hv_at hv 1; h2 <<- tget hv_at hv 2; h3 <<- tget hv_at hv 3;
  round <<- t_round vi 20 40 60;
  fk <<- match sha1_round_fun round h1 h2 h3 with Some f => oret f | None => None end;
  hv <<- tmod hv_at hv 4 (fun x => uadd 32 x (fst fk));
  hv <<- tmod hv_at hv 4 (fun x => uadd 32 x (snd fk));
  h0 <<- tget hv_at hv 0;
  hv <<- tmod hv_at hv 4 (fun x => uadd 32 x (rotl 32 h0 5));
  v <<- tget values_at values vi;
  hv <<- tmod hv_at hv 4 (fun x => uadd 32 x v);
  hash_value <<- tget hv_at hv 4;
  x <<- tget hv_at hv 3; hv <<- tset hv_at hv 4 x;
  x <<- tget hv_at hv 2; hv <<- tset hv_at hv 3 x;
  x <<- tget hv_at hv 1; hv <<- tset hv_at hv 2 (rotl 32 x 30);
  x <<- tget hv_at hv 0; hv <<- tset hv_at hv 1 x;
  tset hv_at hv 0 hash_value.
(* Transform.v:sha1_block *)
Definition t_sha1_block (unrolled : bool) (p : nat) (base : N -> place) (buf : list N) (off : N) (ctx_hash values : list N) : OT block_result :=
  _ <<- oemit (MemoryCopied (hv_at 0) (PMember p MHash 0) 5);
  let hv := ctx_hash in
  if unrolled then
    values <<- t_copy_16x 32 order_be32 copy_16x_uint32_big base buf off values;
    values <<- tfold t_sha1_extend sha1_unfolded_extend values;
    hv <<- tfold (t_sha1_macro values) sha1_unfolded hv;
    ctx_hash <<- t_add_hash_values true p 32 5 ctx_hash hv;
    oret (off + 64, ctx_hash, hv, values)
  else
    st <<- t_copy_loop 32 order_be32 base buf off values;
    let '(off, values) := st in
    values <<- tloop t_sha1_extend (seq 16 64) values;
    hv <<- tloop (t_sha1_loop_step values) (seq 0 80) hv;
    ctx_hash <<- t_add_hash_values false p 32 5 ctx_hash hv;
    oret (off, ctx_hash, hv, values).

Section SHA2.
  Variable K : sha2_code.
  Let w := k_w K.
  (* Transform.v:sha2_extend *)
  Definition t_sha2_extend (values : list N) (i : nat) : OT (list N) :=
    if Nat.ltb i 16 then None else
    x15 <<- tget values_at values (i - 15);
    x2 <<- tget values_at values (i - 2);
    let s0 := sha2_small K (k_ext0 K) x15 in
    let s1 := sha2_small K (k_ext1 K) x2 in
    x16 <<- tget values_at values (i - 16);
    x7 <<- tget values_at values (i - 7);
    tset values_at values i (uadd w (uadd w (uadd w x16 s0) x7) s1).
  (* Transform.v:sha2_t *)
  Definition t_sha2_t (values : list N) (vi : nat) (h0 h1 h2 h4 h5 h6 h7 : N) : OT (N * N) :=
    let s0 := sha2_big K (k_s0 K) h0 in
    let s1 := sha2_big K (k_s1 K) h4 in
    let t1 := h7 in
    let t1 := uadd w t1 s1 in
    let t1 := uadd w t1 (N.lxor (N.land h4 h5) (N.land (unot w h4) h6)) in
    r <<- tget (PTable TRoots) (k_roots K) vi;
    let t1 := uadd w t1 r in
    v <<- tget values_at values vi;
    let t1 := uadd w t1 v in
    let t2 := s0 in
    let t2 := uadd w t2 (N.lxor (N.lxor (N.land h0 h1) (N.land h0 h2)) (N.land h1 h2)) in
    oret (t1, t2).
  (* Transform.v:sha2_macro *)
  Definition t_sha2_macro (values hv : list N) (inv : nat * (nat * nat * nat * nat * nat * nat * nat * nat)) : OT (list N) :=
    let '(vi, (i0, i1, i2, i3, i4, i5, i6, i7)) := inv in
    h0 <<- tget hv_at hv i0; h1 <<- tget hv_at hv i1; h2 <<- tget hv_at hv i2;
    h4 <<- tget hv_at hv i4; h5 <<- tget hv_at hv i5; h6 <<- tget hv_at hv i6; h7 <<- tget hv_at hv i7;
    t <<- t_sha2_t values vi h0 h1 h2 h4 h5 h6 h7;
    hv <<- tmod hv_at hv i3 (fun x => uadd w x (fst t));
    tset hv_at hv i7 (uadd w (fst t) (snd t)).
  (* Transform.v:sha2_loop_step *)
  Definition t_sha2_loop_step (values hv : list N) (vi : nat) : OT (list N) :=
    h0 <<- tget hv_at hv 0; h1 <<- tget hv_at hv 1; h2 <<- tget hv_at hv 2;
    h4 <<- tget hv_at hv 4; h5 <<- tget hv_at hv 5; h6 <<- tget hv_at hv 6; h7 <<- tget hv_at hv 7;
    t <<- t_sha2_t values vi h0 h1 h2 h4 h5 h6 h7;
    x <<- tget hv_at hv 6; hv <<- tset hv_at hv 7 x;
    x <<- tget hv_at hv 5; hv <<- tset hv_at hv 6 x;
    x <<- tget hv_at hv 4; hv <<- tset hv_at hv 5 x;
    x <<- tget hv_at hv 3; hv <<- tset hv_at hv 4 (uadd w x (fst t));
    x <<- tget hv_at hv 2; hv <<- tset hv_at hv 3 x;
    x <<- tget hv_at hv 1; hv <<- tset hv_at hv 2 x;
    x <<- tget hv_at hv 0; hv <<- tset hv_at hv 1 x;
    tset hv_at hv 0 (uadd w (fst t) (snd t)).
  (* Transform.v:sha2_block *)
  Definition t_sha2_block (unrolled : bool) (p : nat) (base : N -> place) (buf : list N) (off : N) (ctx_hash values : list N) : OT block_result :=
    _ <<- oemit (MemoryCopied (hv_at 0) (PMember p MHash 0) 8);
    let hv := ctx_hash in
    if unrolled then
      values <<- t_copy_16x w (k_order K) (k_copy16 K) base buf off values;
      values <<- tfold t_sha2_extend (k_extend K) values;
      hv <<- tfold (t_sha2_macro values) (k_unfolded K) hv;
      ctx_hash <<- t_add_hash_values true p w 8 ctx_hash hv;
      oret (off + 2 * w, ctx_hash, hv, values)
    else
      st <<- t_copy_loop w (k_order K) base buf off values;
      let '(off, values) := st in
      values <<- tloop t_sha2_extend (seq 16 (k_rounds K - 16)) values;
      hv <<- tloop (t_sha2_loop_step values) (seq 0 (k_rounds K)) hv;
      ctx_hash <<- t_add_hash_values false p w 8 ctx_hash hv;
      oret (off, ctx_hash, hv, values).
End SHA2.

(* the member a_block of Context.v:alg *)
Definition t_block (a : algid) : bool -> nat -> (N -> place) -> list N -> N -> list N -> list N -> OT block_result :=
  match a with
  | MD5 => t_md5_block | SHA1 => t_sha1_block
  | SHA224 => t_sha2_block sha224_code | SHA256 => t_sha2_block sha256_code | SHA512 => t_sha2_block sha512_code
  end.

(* ------------------------------------------------------------------ steps on memory *)

Inductive traced (A : Type) : Type :=
| TDone (t : list event) (a : A) (s : state)
| TUndef.
Arguments TDone {A}. Arguments TUndef {A}.
Definition T (A : Type) : Type := state -> traced A.
Definition tret {A} (a : A) : T A := fun s => TDone [] a s.
Definition tbind {A B} (m : T A) (f : A -> T B) : T B :=
  fun s => match m s with
           | TDone t a s' => match f a s' with TDone t' b s'' => TDone (t ++ t') b s'' | TUndef => TUndef end
           | TUndef => TUndef
           end.
Notation "x <~ m ;; k" := (tbind m (fun x => k)) (at level 61, m at next level, right associativity).
Notation "m ~; k" := (tbind m (fun _ => k)) (at level 61, right associativity).
Definition emit (e : event) : T unit := fun s => TDone [e] tt s.
(* a step of the model of which nothing is recorded here; the record is written beside it *)
Definition quiet {A} (m : M A) : T A := fun s => match m s with Done a s' => TDone [] a s' | Undef => TUndef end.
Definition local {A} (m : OT A) : T A := fun s => match m with Some (t, a) => TDone t a s | None => TUndef end.
Definition cond (b : bool) : T bool := emit (Condition b) ~; tret b.
Definition is_null {A} (o : option A) : bool := match o with None => true | Some _ => false end.
Definition t_error_set (e : bool) (k : err) : T unit := emit (ErrorSet k) ~; quiet (error_set e k).
Definition t_fail (e : bool) (k : err) : T Z := t_error_set e k ~; tret (-1)%Z.
Definition t_mset (p : ptr) (v n : N) : T unit := emit (MemorySet (PBytes (fst p) (snd p)) n) ~; quiet (mset p v n).
Definition t_mcopy (dst src : ptr) (n : N) : T unit :=
  emit (MemoryCopied (PBytes (fst dst) (snd dst)) (PBytes (fst src) (snd src)) n) ~; quiet (mcopy dst src n).
Definition t_mfree (p : nat) : T unit := emit (Freed p) ~; quiet (mfree p).
Definition t_read_byte (p : ptr) : T N := emit (Read (PBytes (fst p) (snd p))) ~; quiet (read_byte p).
Definition t_write_byte (p : ptr) (b : N) : T unit := emit (Write (PBytes (fst p) (snd p))) ~; quiet (write_byte p b).
Fixpoint t_mfold {A B} (f : A -> B -> T A) (l : list B) (a : A) : T A :=
  match l with
  | [] => tret a
  | b :: t => a' <~ f a b ;; t_mfold f t a'
  end.
Fixpoint t_mloop {A B} (f : A -> B -> T A) (l : list B) (a : A) : T A :=
  match l with
  | [] => emit (Condition false) ~; tret a
  | b :: t => emit (Condition true) ~; a' <~ f a b ;; t_mloop f t a'
  end.
(* bytes written one by one, in memory order or from the last to the first: byte_stream_copy_from_uintNN *)
Fixpoint t_bytes (at_ : N -> place) (n : nat) (off : N) : T unit :=
  match n with
  | O => tret tt
  | S m => emit (Write (at_ off)) ~; t_bytes at_ m (off + 1)
  end.
Definition rd (p : nat) (m : member) (i : N) : T unit := emit (Read (PMember p m i)).
Definition wr (p : nat) (m : member) (i : N) : T unit := emit (Write (PMember p m i)).

Section WithEnv.
  Variable E : env.

  (* Context.v:transform_loop *)
  Fixpoint t_transform_loop (a : algid) (p : nat) (base : N -> place) (fuel : nat) (buf : list N) (off size : N)
           (ctx_hash hv values : list N) : OT block_result :=
    more <<- ocond (negb (size <? a_bs (alg_of a)));
    if negb more then oret (off, ctx_hash, hv, values)
    else match fuel with
         | O => None
         | S f =>
             r <<- t_block a (unrolled E) p base buf off ctx_hash values;
             _ <<- oemit (BlockDone a);
             let '(off', ctx_hash', hv', values') := r in
             t_transform_loop a p base f buf off' (size - a_bs (alg_of a)) ctx_hash' hv' values'
         end.

  (* Context.v:transform; [base] gives the places of the buffer *)
  Definition t_transform (a : algid) (context : option nat) (base : N -> place) (buffer : option (list N)) (size : N) (e : bool) : T Z :=
    let A := alg_of a in
    _ <~ cond (is_null context) ;;
    match context with
    | None => t_fail e E_ARGUMENT_INVALID_VALUE
    | Some p =>
        _ <~ cond (is_null buffer) ;;
        match buffer with
        | None => t_fail e E_ARGUMENT_INVALID_VALUE
        | Some buf =>
            large <~ cond (ssize_max E <? size) ;;
            if large then t_fail e E_ARGUMENT_VALUE_EXCEEDS_MAXIMUM
            else
              c <~ quiet (load_ctx a p) ;;
              call <~ quiet (fun s => Done (length (resid s)) s) ;;
              let hv := map (stack_junk E call) (seq 0 (a_nh A)) in
              let values := map (stack_junk E call) (seq (a_nh A) (a_nv A)) in
              r <~ local (t_transform_loop a p base (N.to_nat (size / a_bs A)) buf 0 size (c_hash c) hv values) ;;
              let '(off, ctx_hash, hv, values) := r in
              quiet (store_ctx a p (mk_ctx (c_count c) ctx_hash (c_boff c) (c_block c))) ~;
              emit (MemorySet (hv_at 0) (N.of_nat (a_nh A))) ~;
              hv <~ quiet (lift (clear_first (a_nh A) hv)) ;;
              emit (MemorySet (values_at 0) (N.of_nat (a_ncl A))) ~;
              values <~ quiet (lift (clear_first (a_ncl A) values)) ;;
              quiet (log_frame (mk_frame hv values)) ~;
              tret (to_ssize E off)
        end
    end.

  (* Context.v:context_initialize *)
  Definition t_initialize (a : algid) (context : option (option nat)) (e : bool) : T (Z * option nat) :=
    let A := alg_of a in
    _ <~ cond (is_null context) ;;
    match context with
    | None => r <~ t_fail e E_ARGUMENT_INVALID_VALUE ;; tret (r, None)
    | Some v =>
        _ <~ cond (negb (is_null v)) ;;
        match v with
        | Some q => r <~ t_fail e E_RUNTIME_VALUE_ALREADY_SET ;; tret (r, Some q)
        | None =>
            emit (MallocContext a) ~;
            internal_context <~ quiet (fun s => allocate (OCtx a (junk_ctx E A (length (mem s)))) E s) ;;
            _ <~ cond (is_null internal_context) ;;
            match internal_context with
            | None => r <~ t_fail e E_MEMORY_INSUFFICIENT ;; _ <~ cond false ;; tret (r, None)    (* on_error: md5 581-586 *)
            | Some p =>
                emit (MemorySet (PWhole p) 1) ~;
                quiet (store_ctx a p (zero_ctx A)) ~;
                emit (MemoryCopied (PMember p MHash 0) (PTable TStart 0) (N.of_nat (a_nh A))) ~;
                c <~ quiet (load_ctx a p) ;;
                quiet (store_ctx a p (mk_ctx (c_count c) (a_iv A) (c_boff c) (c_block c))) ~;
                tret (1%Z, Some p)
            end
        end
    end.

  (* Context.v:context_free *)
  Definition t_free (a : algid) (context : option (option nat)) (e : bool) : T (Z * option nat) :=
    _ <~ cond (is_null context) ;;
    match context with
    | None => r <~ t_fail e E_ARGUMENT_INVALID_VALUE ;; tret (r, None)
    | Some v =>
        _ <~ cond (negb (is_null v)) ;;
        match v with
        | None => tret (1%Z, None)
        | Some p => t_mfree p ~; tret (1%Z, None)
        end
    end.

  (* Context.v:update_tail *)
  Definition t_update_tail (a : algid) (p : nat) (bp : ptr) (buf : list N) (buffer_offset size : N) (e : bool) : T Z :=
    let A := alg_of a in
    more <~ cond (0 <? size) ;;
    step <~ (if more then
               process_count <~ t_transform a (Some p) (fun i => PBytes (fst bp) (snd bp + (buffer_offset + i)))
                                  (Some (skipn (N.to_nat buffer_offset) buf)) size e ;;
               failed <~ cond (process_count =? -1)%Z ;;
               if failed then r <~ t_fail e E_RUNTIME_SET_FAILED ;; tret None
               else
                 rd p MCount 0 ~; wr p MCount 0 ~;
                 c <~ quiet (load_ctx a p) ;;
                 let n := Z.to_N (process_count mod 2 ^ 64) in
                 quiet (store_ctx a p (mk_ctx (uadd 64 (c_count c) n) (c_hash c) (c_boff c) (c_block c))) ~;
                 tret (Some ((buffer_offset + n) mod size_mod E, usub (size_mod E) size (n mod size_mod E)))
             else tret (Some (buffer_offset, size))) ;;
    match step with
    | None => tret (-1)%Z
    | Some (buffer_offset, size) =>
        more <~ cond (0 <? size) ;;
        if more then
          large <~ cond (a_bs A <=? size) ;;
          if large then t_fail e E_RUNTIME_VALUE_OUT_OF_BOUNDS
          else
            emit (MemoryCopied (PMember p MBlock 0) (PBytes (fst bp) (snd bp + buffer_offset)) size) ~;
            c <~ quiet (load_ctx a p) ;;
            d <~ quiet (lift (take size (skipn (N.to_nat buffer_offset) buf))) ;;
            block <~ quiet (lift (splice (c_block c) 0 d)) ;;
            wr p MBoff 0 ~;
            quiet (store_ctx a p (mk_ctx (c_count c) (c_hash c) size block)) ~;
            tret 1%Z
        else tret 1%Z
    end.

  (* Context.v:context_update *)
  Definition t_update (a : algid) (context : option nat) (buffer : option ptr) (size : N) (e : bool) : T Z :=
    let A := alg_of a in
    _ <~ cond (is_null context) ;;
    match context with
    | None => t_fail e E_ARGUMENT_INVALID_VALUE
    | Some p =>
        _ <~ cond (is_null buffer) ;;
        match buffer with
        | None => t_fail e E_ARGUMENT_INVALID_VALUE
        | Some bp =>
            large <~ cond (ssize_max E <? size) ;;
            if large then t_fail e E_ARGUMENT_VALUE_EXCEEDS_MAXIMUM
            else
              nothing <~ cond (size =? 0) ;;
              if nothing then tret 1%Z
              else
              c <~ quiet (load_ctx a p) ;;
              buf <~ quiet (view bp) ;;
              rd p MBoff 0 ~;
              started <~ cond (0 <? c_boff c) ;;
              if started then
                rd p MBoff 0 ~;
                wrong <~ cond (a_bs A <=? c_boff c) ;;
                if wrong then t_fail e E_RUNTIME_VALUE_OUT_OF_BOUNDS
                else
                  rd p MBoff 0 ~;
                  let remaining := a_bs A - c_boff c in
                  small <~ cond (size <? remaining) ;;
                  let remaining := if small then size else remaining in
                  rd p MBoff 0 ~;
                  emit (MemoryCopied (PMember p MBlock (c_boff c)) (PBytes (fst bp) (snd bp)) remaining) ~;
                  d <~ quiet (lift (take remaining buf)) ;;
                  block <~ quiet (lift (splice (c_block c) (c_boff c) d)) ;;
                  rd p MBoff 0 ~; wr p MBoff 0 ~;
                  let boff := c_boff c + remaining in
                  quiet (store_ctx a p (mk_ctx (c_count c) (c_hash c) boff block)) ~;
                  rd p MBoff 0 ~;
                  unfilled <~ cond (boff <? a_bs A) ;;
                  if unfilled then tret 1%Z
                  else
                    let size := size - remaining in
                    process_count <~ t_transform a (Some p) (PMember p MBlock) (Some block) (a_bs A) e ;;
                    failed <~ cond (process_count =? -1)%Z ;;
                    if failed then t_fail e E_RUNTIME_SET_FAILED
                    else
                      rd p MCount 0 ~; wr p MCount 0 ~; wr p MBoff 0 ~;
                      c <~ quiet (load_ctx a p) ;;
                      let n := Z.to_N (process_count mod 2 ^ 64) in
                      quiet (store_ctx a p (mk_ctx (uadd 64 (c_count c) n) (c_hash c) 0 (c_block c))) ~;
                      t_update_tail a p bp buf remaining size e
              else t_update_tail a p bp buf 0 size e
        end
    end.

  (* Context.v:final_checks *)
  Fixpoint t_final_checks (A : alg) (l : list final_check) (hash_size : N) : OT (option err) :=
    match l with
    | [] => oret None
    | CheckMax :: t =>
        large <<- ocond (ssize_max E <? hash_size);
        if large then oret (Some E_ARGUMENT_VALUE_EXCEEDS_MAXIMUM) else t_final_checks A t hash_size
    | CheckMin :: t =>
        small <<- ocond (hash_size <? a_hs A);
        if small then oret (Some E_ARGUMENT_VALUE_TOO_SMALL) else t_final_checks A t hash_size
    end.

  (* Context.v:store_digest *)
  Definition t_store_digest (a : algid) (p : nat) (hash : ptr) : T unit :=
    let A := alg_of a in
    let wb := N.to_nat (a_w A / 8) in
    if unrolled E then
      t_mfold (fun (_ : unit) st =>
               rd p MHash (N.of_nat (snd st)) ~;
               t_bytes (fun i => PBytes (fst hash) (snd hash + i)) wb (fst st) ~;
               c <~ quiet (load_ctx a p) ;;
               v <~ quiet (lift (aget (c_hash c) (snd st))) ;;
               quiet (write (ptr_add hash (fst st)) (copy_from_uint wb (a_big A) v)))
            (a_stores A) tt
    else
      t_mloop (fun hash_index i =>
               rd p MHash (N.of_nat i) ~;
               t_bytes (fun i => PBytes (fst hash) (snd hash + i)) wb hash_index ~;
               c <~ quiet (load_ctx a p) ;;
               v <~ quiet (lift (aget (c_hash c) i)) ;;
               quiet (write (ptr_add hash hash_index) (copy_from_uint wb (a_big A) v)) ~;
               tret (hash_index + a_w A / 8))
            (seq 0 (a_outw A)) 0 ~;
      tret tt.

  (* Context.v:context_finalize *)
  Definition t_finalize (a : algid) (context : option nat) (hash : option ptr) (hash_size : N) (e : bool) : T Z :=
    let A := alg_of a in
    _ <~ cond (is_null context) ;;
    match context with
    | None => t_fail e E_ARGUMENT_INVALID_VALUE
    | Some p =>
        _ <~ cond (is_null hash) ;;
        match hash with
        | None => t_fail e E_ARGUMENT_INVALID_VALUE
        | Some hp =>
            checked <~ local (t_final_checks A (a_checks A) hash_size) ;;
            match checked with
            | Some k => t_fail e k
            | None =>
                c <~ quiet (load_ctx a p) ;;
                rd p MBoff 0 ~;
                two <~ cond (a_thr A <? c_boff c) ;;
                let number_of_blocks := if two then 2 else 1 in
                let block_size := number_of_blocks * a_bs A in
                let n := usub (size_mod E) block_size (c_boff c) in
                rd p MBoff 0 ~;
                emit (MemorySet (PMember p MBlock (c_boff c)) n) ~;
                block <~ quiet (lift (splice (c_block c) (c_boff c) (repeat 0 (N.to_nat n)))) ;;
                rd p MBoff 0 ~; wr p MBlock (c_boff c) ~;
                block <~ quiet (lift (splice block (c_boff c) [0x80])) ;;
                rd p MCount 0 ~; rd p MBoff 0 ~;
                let bit_size := (uadd 64 (c_count c) (c_boff c) * 8) mod 2 ^ 64 in
                t_bytes (PMember p MBlock) 8 (block_size - 8) ~;
                block <~ quiet (lift (splice block (block_size - 8) (copy_from_uint 8 (a_big A) bit_size))) ;;
                quiet (store_ctx a p (mk_ctx (c_count c) (c_hash c) (c_boff c) block)) ~;
                process_count <~ t_transform a (Some p) (PMember p MBlock) (Some block) block_size e ;;
                failed <~ cond (process_count =? -1)%Z ;;
                if failed then t_fail e E_RUNTIME_SET_FAILED
                else
                  t_store_digest a p hp ~;
                  emit (MemorySet (PWhole p) 1) ~;
                  quiet (store_ctx a p (zero_ctx A)) ~;
                  tret 1%Z
            end
        end
    end.

  (* Hash.v:calculate_on_error *)
  Definition t_calculate_on_error (a : algid) (context : option nat) : T Z :=
    _ <~ cond (negb (is_null context)) ;;
    match context with
    | Some p => t_free a (Some (Some p)) false ~; tret (-1)%Z
    | None => tret (-1)%Z
    end.
  (* if( libhmac_X_...( ... ) != 1 ) *)
  Definition not_one (r : Z) : T bool := cond (negb (r =? 1)%Z).

  (* Hash.v:calculate *)
  Definition t_calculate (a : algid) (buffer : option ptr) (size : N) (hash : option ptr) (hash_size : N) (e : bool) : T Z :=
    r <~ t_initialize a (Some None) e ;;
    let context := snd r in
    failed <~ not_one (fst r) ;;
    if failed then t_error_set e E_RUNTIME_INITIALIZE_FAILED ~; t_calculate_on_error a context
    else
      r <~ t_update a context buffer size e ;;
      failed <~ not_one r ;;
      if failed then t_error_set e E_RUNTIME_SET_FAILED ~; t_calculate_on_error a context
      else
        r <~ t_finalize a context hash hash_size e ;;
        failed <~ not_one r ;;
        if failed then t_error_set e E_RUNTIME_FINALIZE_FAILED ~; t_calculate_on_error a context
        else
          r <~ t_free a (Some context) e ;;
          let context := snd r in
          failed <~ not_one (fst r) ;;
          if failed then t_error_set e E_RUNTIME_FINALIZE_FAILED ~; t_calculate_on_error a context
          else tret 1%Z.

  (* Hash.v:clear_and_free *)
  Definition t_clear_and_free (a : algid) (p : option nat) : T unit :=
    _ <~ cond (negb (is_null p)) ;;
    match p with
    | None => tret tt
    | Some q => t_mset (q, 0) 0 (hmac_block_size a) ~; t_mfree q
    end.
  (* Hash.v:hmac_on_error *)
  Definition t_hmac_on_error (a : algid) (context outer_padding inner_padding key_data : option nat) : T Z :=
    (_ <~ cond (negb (is_null context)) ;;
     match context with
     | Some p => t_free a (Some (Some p)) false ~; tret tt
     | None => tret tt
     end) ~;
    t_clear_and_free a outer_padding ~;
    t_clear_and_free a inner_padding ~;
    t_clear_and_free a key_data ~;
    tret (-1)%Z.
  (* Hash.v:allocate_bytes *)
  Definition t_allocate_bytes (n : N) : T (option nat) := emit (MallocBytes n) ~; quiet (allocate_bytes E n).

  (* Hash.v:hmac_key_data *)
  Definition t_hmac_key_data (a : algid) (key_hash key_data : nat) (key : ptr) (key_size : N) (e : bool) : T (option (option nat)) :=
    let block_size := hmac_block_size a in
    let hash_size := a_hs (alg_of a) in
    short <~ cond (key_size <=? block_size) ;;
    if short then
      t_mcopy (key_data, 0) key key_size ~;
      t_mset (key_data, key_size) 0 (block_size - key_size) ~;
      tret None
    else
      r <~ t_initialize a (Some None) e ;;
      let context := snd r in
      failed <~ not_one (fst r) ;;
      if failed then t_error_set e E_RUNTIME_INITIALIZE_FAILED ~; tret (Some context)
      else
        r <~ t_update a context (Some key) key_size e ;;
        failed <~ not_one r ;;
        if failed then t_error_set e E_RUNTIME_SET_FAILED ~; tret (Some context)
        else
          r <~ t_finalize a context (Some (key_hash, 0)) hash_size e ;;
          failed <~ not_one r ;;
          if failed then t_error_set e E_RUNTIME_FINALIZE_FAILED ~; tret (Some context)
          else
            r <~ t_free a (Some context) e ;;
            let context := snd r in
            failed <~ not_one (fst r) ;;
            if failed then t_error_set e E_RUNTIME_FINALIZE_FAILED ~; tret (Some context)
            else
              (room <~ cond (hash_size <? block_size) ;;
               if room then t_mset (key_data, hash_size) 0 (block_size - hash_size) else tret tt) ~;
              t_mcopy (key_data, 0) (key_hash, 0) hash_size ~;
              tret None.

  (* Hash.v:hmac_xor_step, hmac_xor *)
  Definition t_hmac_xor_step (inner_padding outer_padding key_data : nat) (_ : unit) (i : nat) : T unit :=
    x <~ t_read_byte (inner_padding, N.of_nat i) ;;
    k <~ t_read_byte (key_data, N.of_nat i) ;;
    t_write_byte (inner_padding, N.of_nat i) (N.lxor x k) ~;
    x <~ t_read_byte (outer_padding, N.of_nat i) ;;
    k <~ t_read_byte (key_data, N.of_nat i) ;;
    t_write_byte (outer_padding, N.of_nat i) (N.lxor x k).
  Definition t_hmac_xor (inner_padding outer_padding key_data : nat) (n : nat) : T unit :=
    t_mloop (t_hmac_xor_step inner_padding outer_padding key_data) (seq 0 n) tt.

  (* Hash.v:hmac_pass *)
  Definition t_hmac_pass (a : algid) (padding : nat) (buffer : option ptr) (size : N)
             (hmac : option ptr) (hmac_size : N) (e : bool) : T (option (option nat)) :=
    let block_size := hmac_block_size a in
    r <~ t_initialize a (Some None) e ;;
    let context := snd r in
    failed <~ not_one (fst r) ;;
    if failed then t_error_set e E_RUNTIME_INITIALIZE_FAILED ~; tret (Some context)
    else
      r <~ t_update a context (Some (padding, 0)) block_size e ;;
      failed <~ not_one r ;;
      if failed then t_error_set e E_RUNTIME_SET_FAILED ~; tret (Some context)
      else
        r <~ t_update a context buffer size e ;;
        failed <~ not_one r ;;
        if failed then t_error_set e E_RUNTIME_SET_FAILED ~; tret (Some context)
        else
          r <~ t_finalize a context hmac hmac_size e ;;
          failed <~ not_one r ;;
          if failed then t_error_set e E_RUNTIME_FINALIZE_FAILED ~; tret (Some context)
          else
            r <~ t_free a (Some context) e ;;
            let context := snd r in
            failed <~ not_one (fst r) ;;
            if failed then t_error_set e E_RUNTIME_FINALIZE_FAILED ~; tret (Some context)
            else tret None.

  (* Hash.v:calculate_hmac_body *)
  Definition t_calculate_hmac_body (a : algid) (key_hash : nat) (key : option ptr) (key_size : N)
             (buffer : option ptr) (size : N) (hmac : option ptr) (hmac_size : N) (e : bool) : T Z :=
    let block_size := hmac_block_size a in
    let hash_size := a_hs (alg_of a) in
    _ <~ cond (is_null key) ;;
    match key with
    | None => t_fail e E_ARGUMENT_INVALID_VALUE
    | Some kp =>
        large <~ cond (ssize_max E <? key_size) ;;
        if large then t_fail e E_ARGUMENT_VALUE_EXCEEDS_MAXIMUM
        else
          small <~ cond (hmac_size <? hash_size) ;;
          if small then t_fail e E_ARGUMENT_VALUE_TOO_SMALL
          else
          key_data <~ t_allocate_bytes block_size ;;
          _ <~ cond (is_null key_data) ;;
          match key_data with
          | None => t_error_set e E_MEMORY_INSUFFICIENT ~; t_hmac_on_error a None None None None
          | Some kd =>
              r <~ t_hmac_key_data a key_hash kd kp key_size e ;;
              match r with
              | Some context => t_hmac_on_error a context None None key_data
              | None =>
                  inner_padding <~ t_allocate_bytes block_size ;;
                  _ <~ cond (is_null inner_padding) ;;
                  match inner_padding with
                  | None => t_error_set e E_MEMORY_INSUFFICIENT ~; t_hmac_on_error a None None None key_data
                  | Some ip =>
                      t_mset (ip, 0) 0x36 block_size ~;
                      outer_padding <~ t_allocate_bytes block_size ;;
                      _ <~ cond (is_null outer_padding) ;;
                      match outer_padding with
                      | None => t_error_set e E_MEMORY_INSUFFICIENT ~; t_hmac_on_error a None None inner_padding key_data
                      | Some op =>
                          t_mset (op, 0) 0x5c block_size ~;
                          t_hmac_xor ip op kd (N.to_nat block_size) ~;
                          r <~ t_hmac_pass a ip buffer size hmac hmac_size e ;;
                          match r with
                          | Some context => t_hmac_on_error a context outer_padding inner_padding key_data
                          | None =>
                              r <~ t_hmac_pass a op hmac hash_size hmac hmac_size e ;;
                              match r with
                              | Some context => t_hmac_on_error a context outer_padding inner_padding key_data
                              | None =>
                                  t_mset (op, 0) 0 block_size ~;
                                  t_mfree op ~;
                                  t_mset (ip, 0) 0 block_size ~;
                                  t_mfree ip ~;
                                  t_mset (kd, 0) 0 block_size ~;
                                  t_mfree kd ~;
                                  tret 1%Z
                              end
                          end
                      end
                  end
              end
          end
    end.

  (* Hash.v:calculate_hmac *)
  Definition t_calculate_hmac (a : algid) (key : option ptr) (key_size : N) (buffer : option ptr) (size : N)
             (hmac : option ptr) (hmac_size : N) (e : bool) : T Z :=
    key_hash <~ quiet (fun s => push_local (OBytes (junk_bytes E (length (mem s)) (a_hs (alg_of a)))) s) ;;
    r <~ t_calculate_hmac_body a key_hash key key_size buffer size hmac hmac_size e ;;
    quiet (pop_local key_hash) ~;
    tret r.
End WithEnv.
