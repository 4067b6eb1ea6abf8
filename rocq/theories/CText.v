(* A meaning for the text of the C files: the statements and expressions that
   libhmac/libhmac_X_context.c, libhmac/libhmac_X.c, hmactools/digest_hash.c,
   hmactools/byte_size_string.c, hmactools/hmactools_getopt.c and hmactools/sum_handle.c are made of, and what executing
   them does to the machine of Machine.v.  The files themselves, as terms of the types below, are in TextMd5.v, TextSha1.v,
   TextSha224.v, TextSha256.v, TextSha512.v, TextTools.v and TextSum.v.

   The integer rules are those of C11: 6.3.1.1 and 6.3.1.8 (promotion and the usual
   arithmetic conversions), 6.3.1.3 (conversion), 6.2.5p9 (unsigned arithmetic wraps),
   6.5p5 (a signed result out of range is undefined), 6.5.7 (shifts).  int has 32 bits;
   size_t, ssize_t and unsigned long have 64 or 32 bits as [plat64] says.  Conversion to
   a signed type that cannot hold the value wraps, as gcc and clang define it.

   Anything not provided for, among it every access outside an object, is [undef]. *)
From Coq Require Import Arith NArith ZArith List Bool String.
From Verif Require Import Words Machine Context Hash.
Import ListNotations.
Open Scope string_scope.
Open Scope list_scope.
Open Scope N_scope.

(* ------------------------------------------------------------------ syntax *)

(* the widths of the integer types: uint8_t, int8_t and char; int and uint32_t; size_t, ssize_t and
   unsigned long; uint64_t *)
Inductive rank : Type := R8 | R32 | RSz | R64.

Inductive bop : Type :=
| OAdd | OSub | OMul | ODiv | OMod | OAnd | OOr | OXor | OShl | OShr | OEq | ONe | OLt | OGt | OLe | OGe.

Inductive expr : Type :=
| EVar (x : string)                            (* x *)
| EInt (z : Z)                                 (* a literal of type int *)
| ELong (n : N)                                (* a literal with the suffix UL *)
| ESize (n : N)                                (* sizeof( an integer type ) *)
| ESizeof (t : string)                         (* sizeof( a structure type ) *)
| ENull                                        (* NULL *)
| EName (c : string)                           (* an error domain or code *)
| ESsizeMax                                    (* SSIZE_MAX *)
| EStar (x : string)                           (* *x for a variable x of type T ** *)
| EField (e : expr) (f : string)               (* e->f *)
| EIndex (e i : expr)                          (* e[ i ] *)
| EAddr (e : expr)                             (* &( e[ i ] ) *)
| ERef (x : string)                            (* &x for a variable x of type T * *)
| ENot (e : expr)                              (* ~e *)
| ECast (signed : bool) (r : rank) (e : expr)  (* ( integer type ) e *)
| EBin (o : bop) (a b : expr)
| ELogAnd (a b : expr)                         (* a && b *)
| ELogOr (a b : expr)                          (* a || b *)
| EPost (x : string)                           (* x++ for an integer variable x *)
| EOut (x : string)                            (* *x for a variable x of type integer type * *)
| EChar (e : expr)                             (* ( system_character_t ) e *)
| EText (t : string)                           (* a string *)
| ECall (f : string) (args : list expr).

Inductive stmt : Type :=
| SSkip
| SSeq (a b : stmt)
| SExpr (e : expr)                             (* e; *)
| SAssign (l e : expr)                         (* l = e; *)
| SOp (o : bop) (l e : expr)                   (* l o= e;  and l++ as l += 1 *)
| SIf (c : expr) (a b : stmt)
| SWhile (c : expr) (b : stmt)
| SFor (i : stmt) (c : expr) (n b : stmt)      (* for( i; c; n ) b *)
| SReturn (e : expr)
| SBreak                                       (* break; *)
| SSwitch (e : expr) (cs : list (list Z * stmt)) (* switch( e ): each statement with the values of its labels *)
| SGoto.                                       (* goto on_error; *)

Notation "a ;- b" := (SSeq a b) (at level 62, right associativity).

Inductive ctype : Type := CPtr | CInt (signed : bool) (r : rank).

Record fundef : Type := {
  f_name : string;
  f_ret : bool * rank;                         (* the type of the result: signed, width *)
  f_params : list (string * ctype);
  f_arrays : list (string * rank * nat);       (* local arrays without initial value *)
  f_locals : list (string * ctype * expr);     (* local variables with initial values *)
  f_body : stmt;
  f_error : stmt;                              (* what follows the label on_error *)
}.

(* the members of a context structure: the width and number of hash_values, the bytes of block *)
Record layout : Type := mk_layout { l_rank : rank; l_words : nat; l_block : nat }.

Record program : Type := {
  p_tables : list (string * (rank * list N));
  p_functions : list fundef;
  p_types : list (string * (algid * layout));
  p_char : bool;                               (* is char, which system_character_t is, a signed type *)
}.

(* ------------------------------------------------------------------ values *)

Inductive val : Type :=
| VU (r : rank) (n : N)                        (* of an unsigned type *)
| VS (r : rank) (z : Z)                        (* of a signed type *)
| VNull
| VBytes (p : ptr)                             (* uint8_t * *)
| VChars (p : ptr)                             (* system_character_t * *)
| VPtrs (l : list val)                         (* pointer to an array of pointers, which is only read *)
| VText (t : string)                           (* pointer to a string in the text of the program *)
| VCtx (a : algid) (p : nat)                   (* pointer to a context structure *)
| VBlock (a : algid) (p : nat) (i : N)         (* &( block[ i ] ) of that structure *)
| VWords (a : algid) (p : nat) (i : N)         (* &( hash_values[ i ] ) of that structure *)
| VLoc (x : string) (i : N)                    (* &( x[ i ] ) of a local array of words *)
| VTab (t : string) (i : N)                    (* &( t[ i ] ) of a table *)
| VErr                                         (* an error pointer that is not NULL *)
| VRef (v : val)                               (* the address of a variable holding v *)
| VSizeof (t : string)
| VName (c : string)
| VArr (r : rank) (l : list N) (w : bool).     (* the contents of a local array of words; was it written *)

Definition locals : Type := list (string * val).

Fixpoint lget (l : locals) (x : string) : option val :=
  match l with
  | [] => None
  | (y, v) :: t => if String.eqb x y then Some v else lget t x
  end.

Fixpoint lset (l : locals) (x : string) (v : val) : option locals :=
  match l with
  | [] => None
  | (y, u) :: t => if String.eqb x y then Some ((y, v) :: t)
                   else match lset t x v with Some t' => Some ((y, u) :: t') | None => None end
  end.

Fixpoint find_assoc {A} (l : list (string * A)) (x : string) : option A :=
  match l with
  | [] => None
  | (y, v) :: t => if String.eqb x y then Some v else find_assoc t x
  end.

Fixpoint find_fun (l : list fundef) (x : string) : option fundef :=
  match l with
  | [] => None
  | f :: t => if String.eqb x (f_name f) then Some f else find_fun t x
  end.

Definition rank_eqb (a b : rank) : bool :=
  match a, b with R8, R8 | R32, R32 | RSz, RSz | R64, R64 => true | _, _ => false end.

(* the wider of two types of the same signedness; size_t has at least the bits of int and
   at most those of uint64_t *)
Definition rank_max (a b : rank) : rank :=
  match a, b with
  | R64, _ | _, R64 => R64
  | RSz, _ | _, RSz => RSz
  | R32, _ | _, R32 => R32
  | R8, R8 => R8
  end.

Definition rank_leb (a b : rank) : bool := rank_eqb (rank_max a b) b.

(* how a statement ends *)
Inductive flow : Type := FNext | FReturn (v : val) | FBreak | FError.

(* libcerror/libcerror_definitions.h: the pairs of domain and code that the model names *)
Definition error_of (d c : string) : option err :=
  find_assoc
    [("LIBCERROR_ERROR_DOMAIN_ARGUMENTS LIBCERROR_ARGUMENT_ERROR_INVALID_VALUE", E_ARGUMENT_INVALID_VALUE);
     ("LIBCERROR_ERROR_DOMAIN_ARGUMENTS LIBCERROR_ARGUMENT_ERROR_VALUE_EXCEEDS_MAXIMUM", E_ARGUMENT_VALUE_EXCEEDS_MAXIMUM);
     ("LIBCERROR_ERROR_DOMAIN_ARGUMENTS LIBCERROR_ARGUMENT_ERROR_VALUE_TOO_SMALL", E_ARGUMENT_VALUE_TOO_SMALL);
     ("LIBCERROR_ERROR_DOMAIN_MEMORY LIBCERROR_MEMORY_ERROR_INSUFFICIENT", E_MEMORY_INSUFFICIENT);
     ("LIBCERROR_ERROR_DOMAIN_RUNTIME LIBCERROR_RUNTIME_ERROR_VALUE_ALREADY_SET", E_RUNTIME_VALUE_ALREADY_SET);
     ("LIBCERROR_ERROR_DOMAIN_RUNTIME LIBCERROR_RUNTIME_ERROR_VALUE_OUT_OF_BOUNDS", E_RUNTIME_VALUE_OUT_OF_BOUNDS);
     ("LIBCERROR_ERROR_DOMAIN_RUNTIME LIBCERROR_RUNTIME_ERROR_INITIALIZE_FAILED", E_RUNTIME_INITIALIZE_FAILED);
     ("LIBCERROR_ERROR_DOMAIN_RUNTIME LIBCERROR_RUNTIME_ERROR_SET_FAILED", E_RUNTIME_SET_FAILED);
     ("LIBCERROR_ERROR_DOMAIN_RUNTIME LIBCERROR_RUNTIME_ERROR_FINALIZE_FAILED", E_RUNTIME_FINALIZE_FAILED);
     ("LIBCERROR_ERROR_DOMAIN_RUNTIME LIBCERROR_RUNTIME_ERROR_GET_FAILED", E_RUNTIME_GET_FAILED);
     ("LIBCERROR_ERROR_DOMAIN_RUNTIME LIBCERROR_RUNTIME_ERROR_UNSUPPORTED_VALUE", E_RUNTIME_UNSUPPORTED_VALUE);
     ("LIBCERROR_ERROR_DOMAIN_ARGUMENTS LIBCERROR_ARGUMENT_ERROR_VALUE_OUT_OF_BOUNDS", E_ARGUMENT_VALUE_OUT_OF_BOUNDS);
     ("LIBCERROR_ERROR_DOMAIN_IO LIBCERROR_IO_ERROR_OPEN_FAILED", E_IO_OPEN_FAILED);
     ("LIBCERROR_ERROR_DOMAIN_IO LIBCERROR_IO_ERROR_CLOSE_FAILED", E_IO_CLOSE_FAILED);
     ("LIBCERROR_ERROR_DOMAIN_IO LIBCERROR_IO_ERROR_READ_FAILED", E_IO_READ_FAILED);
     ("LIBCERROR_ERROR_DOMAIN_RUNTIME LIBCERROR_RUNTIME_ERROR_VALUE_MISSING", E_RUNTIME_VALUE_MISSING);
     ("LIBCERROR_ERROR_DOMAIN_RUNTIME LIBCERROR_RUNTIME_ERROR_GENERIC", E_RUNTIME_GENERIC);
     (* include/libhmac/error.h:255, the same value *)
     ("LIBCERROR_ERROR_DOMAIN_RUNTIME LIBHMAC_RUNTIME_ERROR_SET_FAILED", E_RUNTIME_SET_FAILED)]
    (String.append d (String.append " " c)).

Section Meaning.
  Variable E : env.
  Variable P : program.

  (* ------------------------------------------------------------ integers *)

  Definition bits (r : rank) : N :=
    match r with R8 => 8 | R32 => 32 | RSz => if plat64 E then 64 else 32 | R64 => 64 end.

  (* 6.3.1.3: conversion to an unsigned type *)
  Definition to_unsigned (r : rank) (v : val) : option N :=
    match v with
    | VU r' n => Some (if rank_eqb r r' then n else n mod 2 ^ bits r)
    | VS _ z => Some (Z.to_N (z mod 2 ^ Z.of_N (bits r)))
    | _ => None
    end.

  (* conversion to a signed type: wraps *)
  Definition to_signed (r : rank) (v : val) : option Z :=
    let wrap (z : Z) := (let m := z mod 2 ^ Z.of_N (bits r) in
                         if m <? 2 ^ Z.of_N (bits r - 1) then m else m - 2 ^ Z.of_N (bits r))%Z in
    match v with
    | VU _ n => Some (wrap (Z.of_N n))
    | VS r' z => Some (if rank_eqb r r' then z else wrap z)
    | _ => None
    end.

  Definition convert (signed : bool) (r : rank) (v : val) : option val :=
    if signed then option_map (VS r) (to_signed r v) else option_map (VU r) (to_unsigned r v).

  (* 6.3.1.1: uint8_t, int8_t and char become int *)
  Definition promote (v : val) : val :=
    match v with VU R8 n => VS R32 (Z.of_N n) | VS R8 z => VS R32 z | _ => v end.

  (* 6.3.1.8: two operands of a common type *)
  Inductive operands : Type := PU (r : rank) (n m : N) | PS (r : rank) (z y : Z).

  Definition usual (a b : val) : option operands :=
    match promote a, promote b with
    | VU r n, VU r' m => Some (PU (rank_max r r') n m)
    | VS r z, VS r' y => Some (PS (rank_max r r') z y)
    | VU r n, VS r' y =>
        if rank_leb r' r then match to_unsigned r (VS r' y) with Some m => Some (PU r n m) | None => None end
        else None
    | VS r z, VU r' m =>
        if rank_leb r r' then match to_unsigned r' (VS r z) with Some n => Some (PU r' n m) | None => None end
        else None
    | _, _ => None
    end.

  Definition truth (b : bool) : val := VS R32 (if b then 1 else 0)%Z.

  (* 6.5p5: a signed result is defined when it is representable *)
  Definition in_range (r : rank) (z : Z) : option val :=
    if ((- 2 ^ Z.of_N (bits r - 1) <=? z) && (z <? 2 ^ Z.of_N (bits r - 1)))%Z then Some (VS r z) else None.

  Definition arith (o : bop) (p : operands) : option val :=
    match p with
    | PU r n m =>
        match o with
        | OAdd => Some (VU r (uadd (bits r) n m))
        | OSub => Some (VU r (usub (2 ^ bits r) n m))
        | OMul => Some (VU r ((n * m) mod 2 ^ bits r))
        | ODiv => if m =? 0 then None else Some (VU r (n / m))
        | OMod => if m =? 0 then None else Some (VU r (n mod m))
        | OAnd => Some (VU r (N.land n m))
        | OOr => Some (VU r (N.lor n m))
        | OXor => Some (VU r (N.lxor n m))
        | OEq => Some (truth (n =? m))
        | ONe => Some (truth (negb (n =? m)))
        | OLt => Some (truth (n <? m))
        | OGt => Some (truth (m <? n))
        | OLe => Some (truth (n <=? m))
        | OGe => Some (truth (m <=? n))
        | _ => None
        end
    | PS r z y =>
        match o with
        | OAdd => in_range r (z + y)%Z
        | OSub => in_range r (z - y)%Z
        | OMul => in_range r (z * y)%Z
        | ODiv => if (y =? 0)%Z then None else in_range r (Z.quot z y)
        | OMod => if (y =? 0)%Z then None else match in_range r (Z.quot z y) with Some _ => Some (VS r (Z.rem z y)) | None => None end
        | OAnd => Some (VS r (Z.land z y))
        | OOr => Some (VS r (Z.lor z y))
        | OXor => Some (VS r (Z.lxor z y))
        | OEq => Some (truth (z =? y)%Z)
        | ONe => Some (truth (negb (z =? y)%Z))
        | OLt => Some (truth (z <? y)%Z)
        | OGt => Some (truth (y <? z)%Z)
        | OLe => Some (truth (z <=? y)%Z)
        | OGe => Some (truth (y <=? z)%Z)
        | _ => None
        end
    end.

  (* the value of an integer as an array index or an amount to shift by *)
  Definition amount (v : val) : option N :=
    match v with
    | VU _ n => Some n
    | VS _ z => if (0 <=? z)%Z then Some (Z.to_N z) else None
    | _ => None
    end.

  (* 6.5.7 *)
  Definition shift (left : bool) (a b : val) : option val :=
    match promote a, amount b with
    | VU r n, Some k =>
        if k <? bits r then Some (VU r (if left then ushl (bits r) n k else ushr n k)) else None
    | VS r z, Some k =>
        if (k <? bits r) && (0 <=? z)%Z
        then if left then in_range r (Z.shiftl z (Z.of_N k)) else Some (VS r (Z.shiftr z (Z.of_N k)))
        else None
    | _, _ => None
    end.

  (* 6.5.9: comparison of a pointer with NULL *)
  Definition is_null (v : val) : option bool :=
    match v with
    | VNull => Some true
    | VBytes _ | VChars _ | VPtrs _ | VText _ | VCtx _ _ | VBlock _ _ _ | VWords _ _ _ | VLoc _ _ | VTab _ _ | VErr | VRef _ => Some false
    | _ => None
    end.

  Definition binary (o : bop) (a b : val) : option val :=
    match b with
    | VNull =>
        match o with
        | OEq => option_map truth (is_null a)
        | ONe => option_map (fun x => truth (negb x)) (is_null a)
        | _ => None
        end
    | _ =>
        match o with
        | OShl => shift true a b
        | OShr => shift false a b
        | _ => match usual a b with Some p => arith o p | None => None end
        end
    end.

  Definition test (v : val) : option bool :=
    match v with
    | VU _ n => Some (negb (n =? 0))
    | VS _ z => Some (negb (z =? 0)%Z)
    | _ => None
    end.

  (* -------------------------------------------------------------- memory *)

  (* the width of the words of hash_values, from the declaration of the structure *)
  Definition layout_of (a : algid) : option layout :=
    (fix find (l : list (string * (algid * layout))) :=
       match l with
       | [] => None
       | (_, (b, y)) :: t => if algid_eqb a b then Some y else find t
       end) (p_types P).

  (* e + k for a pointer e *)
  Definition index (v : val) (k : N) : option val :=
    match v with
    | VBytes p => Some (VBytes (ptr_add p k))
    | VChars p => Some (VChars (ptr_add p k))
    | VPtrs x => Some (VPtrs (skipn (N.to_nat k) x))
    | VBlock a p i => Some (VBlock a p (i + k))
    | VWords a p i => Some (VWords a p (i + k))
    | VLoc x i => Some (VLoc x (i + k))
    | VTab t i => Some (VTab t (i + k))
    | _ => None
    end.

  (* the char that a byte of memory is *)
  Definition char_value (n : N) : val :=
    if p_char P then VS R8 (if n <? 128 then Z.of_N n else (Z.of_N n - 256)%Z) else VU R8 n.

  (* the value at a pointer *)
  Definition load_at (l : locals) (v : val) : M val :=
    match v with
    | VBytes p => n <- read_byte p ;; ret (VU R8 n)
    | VChars p => n <- read_byte p ;; ret (char_value n)
    | VPtrs x => lift (hd_error x)
    | VBlock a p i => c <- load_ctx a p ;; n <- lift (aget (c_block c) (N.to_nat i)) ;; ret (VU R8 n)
    | VWords a p i =>
        y <- lift (layout_of a) ;;
        c <- load_ctx a p ;; n <- lift (aget (c_hash c) (N.to_nat i)) ;; ret (VU (l_rank y) n)
    | VLoc x i =>
        match lget l x with
        | Some (VArr r ws _) => n <- lift (aget ws (N.to_nat i)) ;; ret (VU r n)
        | _ => undef
        end
    | VTab t i =>
        match find_assoc (p_tables P) t with
        | Some (r, ws) => n <- lift (aget ws (N.to_nat i)) ;; ret (VU r n)
        | None => undef
        end
    | _ => undef
    end.

  (* store the integer [x] at a pointer, converted to the type of the element *)
  Definition store_at (l : locals) (v x : val) : M locals :=
    match v with
    | VBytes p | VChars p => n <- lift (to_unsigned R8 x) ;; write_byte p n ;;; ret l
    | VBlock a p i =>
        n <- lift (to_unsigned R8 x) ;;
        c <- load_ctx a p ;; b <- lift (aset (c_block c) (N.to_nat i) n) ;;
        store_ctx a p (mk_ctx (c_count c) (c_hash c) (c_boff c) b) ;;; ret l
    | VWords a p i =>
        y <- lift (layout_of a) ;;
        n <- lift (to_unsigned (l_rank y) x) ;;
        c <- load_ctx a p ;; h <- lift (aset (c_hash c) (N.to_nat i) n) ;;
        store_ctx a p (mk_ctx (c_count c) h (c_boff c) (c_block c)) ;;; ret l
    | VLoc y i =>
        match lget l y with
        | Some (VArr r ws _) =>
            n <- lift (to_unsigned r x) ;; ws' <- lift (aset ws (N.to_nat i) n) ;;
            lift (lset l y (VArr r ws' true))
        | _ => undef
        end
    | _ => undef
    end.

  (* the words of the array at a pointer, from that pointer on *)
  Definition words_at (l : locals) (v : val) : M (rank * list N) :=
    match v with
    | VWords a p i => y <- lift (layout_of a) ;; c <- load_ctx a p ;; ret (l_rank y, skipn (N.to_nat i) (c_hash c))
    | VLoc x i => match lget l x with
                  | Some (VArr r ws _) => ret (r, skipn (N.to_nat i) ws)
                  | _ => undef
                  end
    | VTab t i => match find_assoc (p_tables P) t with
                  | Some (r, ws) => ret (r, skipn (N.to_nat i) ws)
                  | None => undef
                  end
    | _ => undef
    end.

  (* overwrite the words of the array at a pointer *)
  Definition put_words (l : locals) (v : val) (r : rank) (ws : list N) : M locals :=
    match v with
    | VWords a p i =>
        y <- lift (layout_of a) ;;
        if rank_eqb r (l_rank y) then
          c <- load_ctx a p ;; h <- lift (splice (c_hash c) i ws) ;;
          store_ctx a p (mk_ctx (c_count c) h (c_boff c) (c_block c)) ;;; ret l
        else undef
    | VLoc x i => match lget l x with
                  | Some (VArr r' old _) =>
                      if rank_eqb r r' then new <- lift (splice old i ws) ;; lift (lset l x (VArr r' new true))
                      else undef
                  | _ => undef
                  end
    | _ => undef
    end.

  (* the number of words in n bytes *)
  Definition word_count (r : rank) (n : N) : option N :=
    if n mod (bits r / 8) =? 0 then Some (n / (bits r / 8)) else None.

  Definition word_width (l : locals) (v : val) : option rank :=
    match v with
    | VWords a _ _ => option_map l_rank (layout_of a)
    | VLoc x _ => match lget l x with Some (VArr r _ _) => Some r | _ => None end
    | VTab t _ => option_map fst (find_assoc (p_tables P) t)
    | _ => None
    end.

  (* memset( structure, 0, sizeof ) *)
  Definition clear_structure (y : layout) : ctx :=
    mk_ctx 0 (repeat 0 (l_words y)) 0 (repeat 0 (l_block y)).

  (* common/memory.h:46-121 and libcerror_error_set, on evaluated arguments *)
  Definition external (f : string) (args : list val) (l : locals) : M (val * locals) :=
    if String.eqb f "libcerror_error_set" then
      match args with
      | [e; VName d; VName c] =>
          k <- lift (error_of d c) ;;
          n <- lift (is_null e) ;;
          error_set (negb n) k ;;; ret (VNull, l)
      | _ => undef
      end
    else if String.eqb f "memory_allocate" then
      match args with
      | [VU RSz n] => p <- allocate_bytes E n ;; ret (match p with Some q => VBytes (q, 0) | None => VNull end, l)
      | _ => undef
      end
    else if String.eqb f "memory_allocate_structure" then
      match args with
      | [VSizeof t] =>
          y <- lift (find_assoc (p_types P) t) ;;
          p <- (fun s => allocate (OCtx (fst y) (junk_ctx E (alg_of (fst y)) (List.length (mem s)))) E s) ;;
          ret (match p with Some q => VCtx (fst y) q | None => VNull end, l)
      | _ => undef
      end
    else if String.eqb f "memory_free" then
      match args with
      | [VBytes (p, o)] | [VChars (p, o)] => if o =? 0 then mfree p ;;; ret (VNull, l) else undef
      | [VCtx _ p] => mfree p ;;; ret (VNull, l)
      | _ => undef
      end
    else if String.eqb f "memory_set" then
      match args with
      | [VCtx a p; x; VSizeof t] =>
          y <- lift (find_assoc (p_types P) t) ;;
          n <- lift (to_unsigned R8 x) ;;
          if algid_eqb a (fst y) && (n =? 0) then store_ctx a p (clear_structure (snd y)) ;;; ret (VCtx a p, l) else undef
      | [VBytes p; x; VU RSz n] => b <- lift (to_unsigned R8 x) ;; mset p b n ;;; ret (VBytes p, l)
      | [VBlock a p i; x; VU RSz n] =>
          b <- lift (to_unsigned R8 x) ;;
          c <- load_ctx a p ;; new <- lift (splice (c_block c) i (repeat b (N.to_nat n))) ;;
          store_ctx a p (mk_ctx (c_count c) (c_hash c) (c_boff c) new) ;;; ret (VBlock a p i, l)
      | [d; x; VU RSz n] =>
          r <- lift (word_width l d) ;; k <- lift (word_count r n) ;;
          b <- lift (to_unsigned R8 x) ;;
          if b =? 0 then l' <- put_words l d r (repeat 0 (N.to_nat k)) ;; ret (d, l') else undef
      | _ => undef
      end
    else if String.eqb f "memory_copy" then
      match args with
      | [VBytes d; VBytes q; x] => n <- lift (to_unsigned RSz x) ;; mcopy d q n ;;; ret (VBytes d, l)
      | [VBlock a p i; VBytes q; VU RSz n] =>
          v <- view q ;; x <- lift (take n v) ;;
          c <- load_ctx a p ;; new <- lift (splice (c_block c) i x) ;;
          store_ctx a p (mk_ctx (c_count c) (c_hash c) (c_boff c) new) ;;; ret (VBlock a p i, l)
      | [d; q; VU RSz n] =>
          w <- words_at l q ;; k <- lift (word_count (fst w) n) ;;
          x <- lift (take k (snd w)) ;;
          l' <- put_words l d (fst w) x ;; ret (d, l')
      | _ => undef
      end
    else undef.

  Definition is_external (f : string) : bool :=
    existsb (String.eqb f)
      ["libcerror_error_set"; "memory_allocate"; "memory_allocate_structure"; "memory_free"; "memory_set"; "memory_copy"].

  (* --------------------------------------------- expressions and statements *)

  (* a call of a function of the program: the result and, for each parameter that is the
     address of a pointer variable, what the function left there *)
  Variable call : string -> list val -> M (val * list (option val)).
  Variable fuel : nat.                         (* iterations a loop may make *)

  (* after a call: variables whose address was passed have the value the callee left there *)
  Fixpoint copy_out (args : list expr) (outs : list (option val)) (l : locals) : option locals :=
    match args, outs with
    | [], [] => Some l
    | _ :: t, None :: o => copy_out t o l
    | ERef x :: t, Some v :: o => match lset l x v with Some l' => copy_out t o l' | None => None end
    | EVar x :: t, Some v :: o => match lset l x (VRef v) with Some l' => copy_out t o l' | None => None end
    | _, _ => None
    end.

  Fixpoint eval (e : expr) (l : locals) : M (val * locals) :=
    match e with
    | EVar x =>
        match lget l x with
        | Some (VArr _ _ _) => ret (VLoc x 0, l)
        | Some v => ret (v, l)
        | None => match find_assoc (p_tables P) x with Some _ => ret (VTab x 0, l) | None => undef end
        end
    | EInt z => ret (VS R32 z, l)
    | ELong n => ret (VU RSz n, l)
    | ESize n => ret (VU RSz n, l)
    | ESizeof t => ret (VSizeof t, l)
    | ENull => ret (VNull, l)
    | EName c => ret (VName c, l)
    | ESsizeMax => ret (VS RSz (2 ^ Z.of_N (bits RSz - 1) - 1)%Z, l)
    | EStar x => match lget l x with Some (VRef v) => ret (v, l) | _ => undef end
    | EField e f =>
        v <- eval e l ;;
        match fst v with
        | VCtx a p =>
            if String.eqb f "hash_count" then c <- load_ctx a p ;; ret (VU R64 (c_count c), snd v)
            else if String.eqb f "block_offset" then c <- load_ctx a p ;; ret (VU RSz (c_boff c), snd v)
            else if String.eqb f "hash_values" then ret (VWords a p 0, snd v)
            else if String.eqb f "block" then ret (VBlock a p 0, snd v)
            else undef
        | _ => undef
        end
    | EIndex e i =>
        v <- eval e l ;; k <- eval i (snd v) ;;
        n <- lift (amount (fst k)) ;; q <- lift (index (fst v) n) ;;
        x <- load_at (snd k) q ;; ret (x, snd k)
    | EAddr (EIndex e i) =>
        v <- eval e l ;; k <- eval i (snd v) ;;
        n <- lift (amount (fst k)) ;; q <- lift (index (fst v) n) ;; ret (q, snd k)
    | EAddr _ => undef
    | ERef x => match lget l x with Some (VArr _ _ _) => undef | Some v => ret (VRef v, l) | None => undef end
    | ENot e =>
        v <- eval e l ;;
        match promote (fst v) with
        | VU r n => ret (VU r (unot (bits r) n), snd v)
        | _ => undef
        end
    | ECast s r e => v <- eval e l ;; x <- lift (convert s r (fst v)) ;; ret (x, snd v)
    | EBin o a b =>
        v <- eval a l ;; w <- eval b (snd v) ;; x <- lift (binary o (fst v) (fst w)) ;; ret (x, snd w)
    | ELogAnd a b =>
        v <- eval a l ;; t <- lift (test (fst v)) ;;
        if t then w <- eval b (snd v) ;; u <- lift (test (fst w)) ;; ret (truth u, snd w) else ret (truth false, snd v)
    | ELogOr a b =>
        v <- eval a l ;; t <- lift (test (fst v)) ;;
        if t then ret (truth true, snd v) else w <- eval b (snd v) ;; u <- lift (test (fst w)) ;; ret (truth u, snd w)
    | EPost x =>
        match lget l x with
        | Some (VU r n) =>
            y <- lift (binary OAdd (VU r n) (VS R32 1)) ;; m <- lift (to_unsigned r y) ;;
            l' <- lift (lset l x (VU r m)) ;; ret (VU r n, l')
        | Some (VS r z) =>
            y <- lift (binary OAdd (VS r z) (VS R32 1)) ;; m <- lift (to_signed r y) ;;
            l' <- lift (lset l x (VS r m)) ;; ret (VS r z, l')
        | _ => undef
        end
    | EOut x => match lget l x with Some (VRef (VU r n)) => ret (VU r n, l) | Some (VRef (VS r z)) => ret (VS r z, l) | _ => undef end
    | EChar e => v <- eval e l ;; x <- lift (convert (p_char P) R8 (fst v)) ;; ret (x, snd v)
    | EText t => ret (VText t, l)
    | ECall f args =>
        vs <- (fix go (es : list expr) (l : locals) : M (list val * locals) :=
                 match es with
                 | [] => ret ([], l)
                 | e :: t => v <- eval e l ;; r <- go t (snd v) ;; ret (fst v :: fst r, snd r)
                 end) args l ;;
        if is_external f then external f (fst vs) (snd vs)
        else
          r <- call f (fst vs) ;;
          l' <- lift (copy_out args (snd r) (snd vs)) ;; ret (fst r, l')
    end.

  (* store into what an expression on the left of an assignment names *)
  Definition assign (e : expr) (x : val) (l : locals) : M locals :=
    match e with
    | EVar y =>
        match lget l y with
        | Some (VU r _) => n <- lift (to_unsigned r x) ;; lift (lset l y (VU r n))
        | Some (VS r _) => z <- lift (to_signed r x) ;; lift (lset l y (VS r z))
        | Some (VArr _ _ _) | None => undef
        | Some _ => b <- lift (is_null x) ;; lift (lset l y x)
        end
    | EStar y =>
        match lget l y with
        | Some (VRef _) => b <- lift (is_null x) ;; lift (lset l y (VRef x))
        | _ => undef
        end
    | EOut y =>
        match lget l y with
        | Some (VRef (VU r _)) => n <- lift (to_unsigned r x) ;; lift (lset l y (VRef (VU r n)))
        | Some (VRef (VS r _)) => z <- lift (to_signed r x) ;; lift (lset l y (VRef (VS r z)))
        | _ => undef
        end
    | EField e f =>
        v <- eval e l ;;
        match fst v with
        | VCtx a p =>
            if String.eqb f "hash_count" then
              n <- lift (to_unsigned R64 x) ;; c <- load_ctx a p ;;
              store_ctx a p (mk_ctx n (c_hash c) (c_boff c) (c_block c)) ;;; ret (snd v)
            else if String.eqb f "block_offset" then
              n <- lift (to_unsigned RSz x) ;; c <- load_ctx a p ;;
              store_ctx a p (mk_ctx (c_count c) (c_hash c) n (c_block c)) ;;; ret (snd v)
            else undef
        | _ => undef
        end
    | EIndex e i =>
        v <- eval e l ;; k <- eval i (snd v) ;;
        n <- lift (amount (fst k)) ;; q <- lift (index (fst v) n) ;;
        store_at (snd k) q x
    | _ => undef
    end.

  (* while( test ) body: at most [n] iterations *)
  Fixpoint loop (n : nat) (c : locals -> M (val * locals)) (b : locals -> M (flow * locals)) (l : locals)
    : M (flow * locals) :=
    v <- c l ;;
    t <- lift (test (fst v)) ;;
    if t then
      match n with
      | O => undef
      | S m =>
          r <- b (snd v) ;;
          match fst r with
          | FNext => loop m c b (snd r)
          | FBreak => ret (FNext, snd r)
          | _ => ret r
          end
      end
    else ret (FNext, snd v).

  (* the value of the expression of a switch, promoted (6.8.4.2p5) *)
  Definition chosen (v : val) : option Z := match promote v with VU _ n => Some (Z.of_N n) | VS _ z => Some z | _ => None end.

  Fixpoint exec (st : stmt) (l : locals) : M (flow * locals) :=
    match st with
    | SSkip => ret (FNext, l)
    | SSeq a b =>
        r <- exec a l ;;
        match fst r with
        | FNext => exec b (snd r)
        | _ => ret r
        end
    | SExpr e => v <- eval e l ;; ret (FNext, snd v)
    | SAssign y e => v <- eval e l ;; l' <- assign y (fst v) (snd v) ;; ret (FNext, l')
    | SOp o y e =>
        u <- eval y l ;; v <- eval e (snd u) ;;
        x <- lift (binary o (fst u) (fst v)) ;;
        l' <- assign y x (snd v) ;; ret (FNext, l')
    | SIf c a b =>
        v <- eval c l ;; t <- lift (test (fst v)) ;;
        if t then exec a (snd v) else exec b (snd v)
    | SWhile c b => loop fuel (eval c) (exec b) l
    | SFor i c n b =>
        r <- exec i l ;;
        loop fuel (eval c)
             (fun l => q <- exec b l ;; match fst q with FNext => exec n (snd q) | _ => ret q end) (snd r)
    | SReturn e => v <- eval e l ;; ret (FReturn (fst v), snd v)
    | SBreak => ret (FBreak, l)
    | SSwitch e cs =>
        v <- eval e l ;; z <- lift (chosen (fst v)) ;;
        r <- (fix from (on : bool) (cs : list (list Z * stmt)) (l : locals) : M (flow * locals) :=
                match cs with
                | [] => ret (FNext, l)
                | c :: t =>
                    if on || existsb (Z.eqb z) (fst c)
                    then q <- exec (snd c) l ;; match fst q with FNext => from true t (snd q) | _ => ret q end
                    else from false t l
                end) false cs (snd v) ;;
        match fst r with FBreak => ret (FNext, snd r) | _ => ret r end
    | SGoto => ret (FError, l)
    end.

  (* ------------------------------------------------------------- functions *)

  Fixpoint bind_params (ps : list (string * ctype)) (vs : list val) : option locals :=
    match ps, vs with
    | [], [] => Some []
    | (x, t) :: p, v :: w =>
        match (match t with CPtr => Some v | CInt s r => convert s r v end), bind_params p w with
        | Some v', Some l => Some ((x, v') :: l)
        | _, _ => None
        end
    | _, _ => None
    end.

  (* local arrays: bytes are an object in memory, words a part of the frame.  Both hold
     arbitrary contents at first. *)
  Fixpoint enter_arrays (l : list (string * rank * nat)) (off : nat) : M locals :=
    match l with
    | [] => ret []
    | (x, R8, n) :: t =>
        p <- (fun s => push_local (OBytes (junk_bytes E (List.length (mem s)) (N.of_nat n))) s) ;;
        r <- enter_arrays t off ;; ret ((x, VBytes (p, 0)) :: r)
    | (x, r, n) :: t =>
        k <- (fun s => Done (List.length (resid s)) s) ;;
        q <- enter_arrays t (off + n) ;;
        ret ((x, VArr r (map (stack_junk E k) (seq off n)) false) :: q)
    end.

  Fixpoint enter_locals (ds : list (string * ctype * expr)) (l : locals) : M locals :=
    match ds with
    | [] => ret l
    | (x, t, e) :: d =>
        v <- eval e l ;;
        y <- lift (match t with CPtr => Some (fst v) | CInt s r => convert s r (fst v) end) ;;
        enter_locals d (snd v ++ [(x, y)])
    end.

  (* the end of the life of the local arrays; what written arrays of words hold is recorded *)
  Fixpoint leave_arrays (ds : list (string * rank * nat)) (l : locals) : M unit :=
    match ds with
    | [] => ret tt
    | (x, R8, _) :: t =>
        match lget l x with
        | Some (VBytes (p, _)) => pop_local p ;;; leave_arrays t l
        | _ => undef
        end
    | _ :: t => leave_arrays t l
    end.

  Definition leave_frame (ds : list (string * rank * nat)) (l : locals) : M unit :=
    match ds with
    | [(x, _, _); (y, _, _)] =>
        match lget l x, lget l y with
        | Some (VArr _ a w), Some (VArr _ b v) => if w || v then log_frame (mk_frame a b) else ret tt
        | _, _ => ret tt
        end
    | _ => ret tt
    end.

  Definition run_fun (f : fundef) (args : list val) : M (val * list (option val)) :=
    l <- lift (bind_params (f_params f) args) ;;
    a <- enter_arrays (f_arrays f) 0 ;;
    l <- enter_locals (f_locals f) (l ++ a) ;;
    r <- exec (f_body f) l ;;
    r <- (match fst r with
          | FReturn _ => ret r
          | FBreak => undef
          | _ => exec (f_error f) (snd r)
          end) ;;
    match fst r with
    | FReturn v =>
        v' <- lift (convert (fst (f_ret f)) (snd (f_ret f)) v) ;;
        leave_arrays (f_arrays f) (snd r) ;;;
        leave_frame (f_arrays f) (snd r) ;;;
        ret (v', map (fun x => match snd x with VRef u => Some u | _ => None end)
                     (firstn (List.length (f_params f)) (snd r)))
    | _ => undef
    end.
End Meaning.

(* calls of functions of a program, nested to a depth of at most [depth] *)
Fixpoint call_text (E : env) (P : program) (fuel depth : nat) (f : string) (args : list val)
  : M (val * list (option val)) :=
  match depth with
  | O => undef
  | S d => match find_fun (p_functions P) f with
           | Some def => run_fun E P (call_text E P fuel d) fuel def args
           | None => undef
           end
  end.
