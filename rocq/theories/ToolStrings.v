(* hmactools/digest_hash.c and hmactools/byte_size_string.c.
   Characters are those of the narrow build (system_character_t is char), as numbers below 256.
   Entries that libclocale adds to the error object itself are not modelled. *)
From Coq Require Import Arith NArith ZArith List Bool.
From Verif Require Import Words Machine.
Import ListNotations.
Open Scope N_scope.

(* digest_hash.c:104-113 and 114-123: the character stored for one digit *)
Definition digit_char (digest_digit : N) : N :=
  if digest_digit <=? 9 then (48 + digest_digit) mod 256 else (97 + (digest_digit - 10)) mod 256.

(* digest_hash.c:100-124: one turn of the loop; the carried value is string_iterator *)
Definition copy_digit_step (digest_hash string : ptr) (string_iterator : N) (digest_hash_iterator : nat) : M N :=
  b <- read_byte (ptr_add digest_hash (N.of_nat digest_hash_iterator)) ;;
  write_byte (ptr_add string string_iterator) (digit_char (b / 16)) ;;;
  b <- read_byte (ptr_add digest_hash (N.of_nat digest_hash_iterator)) ;;
  write_byte (ptr_add string (string_iterator + 1)) (digit_char (b mod 16)) ;;;
  ret (string_iterator + 2).

(* digest_hash.c:31-128 digest_hash_copy_to_string *)
Definition digest_hash_copy_to_string (E : env) (digest_hash : option ptr) (digest_hash_size : N)
           (string : option ptr) (string_size : N) (e : bool) : M Z :=
  match digest_hash with
  | None => fail e E_ARGUMENT_INVALID_VALUE
  | Some dp =>
      if ssize_max E <? digest_hash_size then fail e E_ARGUMENT_VALUE_EXCEEDS_MAXIMUM
      else match string with
      | None => fail e E_ARGUMENT_INVALID_VALUE
      | Some sp =>
          if ssize_max E <? string_size then fail e E_ARGUMENT_VALUE_EXCEEDS_MAXIMUM
          else if string_size <? (2 * digest_hash_size + 1) mod size_mod E then fail e E_ARGUMENT_VALUE_TOO_SMALL
          else
            string_iterator <- mfold (copy_digit_step dp sp) (seq 0 (N.to_nat digest_hash_size)) 0 ;;
            write_byte (ptr_add sp string_iterator) 0 ;;;
            ret 1%Z
      end
  end.

(* ------------------------------------------------------------ byte sizes *)

(* printf's %PRIu64 and %PRIu8; a uint64_t has at most 20 digits *)
Fixpoint decimal_digits (fuel : nat) (n : N) : list N :=
  match fuel with
  | O => []
  | S f => if n <? 10 then [48 + n] else decimal_digits f (n / 10) ++ [48 + n mod 10]
  end.
Definition print_decimal (n : N) : list N := decimal_digits 20 n.

(* common/narrow_string.h:152-153 snprintf: at most size - 1 characters and an end of string are stored; the result is
   the length of the whole text.  [target] are the characters accessible from the pointer. *)
Definition snprintf (target : list N) (size : N) (text : list N) : option (Z * list N) :=
  if size =? 0 then Some (Z.of_nat (length text), target)
  else
    let stored := firstn (N.to_nat (size - 1)) text ++ [0] in
    if N.of_nat (length stored) <=? N.of_nat (length target)
    then Some (Z.of_nat (length text), stored ++ skipn (length stored) target)
    else None.

(* byte_size_string.c:90-96: the loop, from (factored_size, last_factored_size, factor); None when it divides by zero
   or, with the number of bits as fuel, does not end (units 1) *)
Fixpoint factor_loop (fuel : nat) (units factored_size last_factored_size factor : N) : option (N * N * N) :=
  if factored_size <? units then Some (factored_size, last_factored_size, factor)
  else match fuel with
       | O => None
       | S f => if units =? 0 then None
                else factor_loop f units (factored_size / units) factored_size (factor + 1)
       end.

(* byte_size_string.c:114-143; "" K M G T P E Z Y *)
Definition factor_string (factor : N) : list N :=
  nth (N.to_nat factor) [ []; [75]; [77]; [71]; [84]; [80]; [69]; [90]; [89] ] [].

(* conversion to int8_t *)
Definition to_int8 (n : N) : Z := let r := n mod 256 in if r <? 128 then Z.of_N r else (Z.of_N r - 256)%Z.

(* byte_size_string.c:36-202 byte_size_string_create.  [target] are the characters accessible from byte_size_string (None
   for NULL), [units] the int as its value modulo 2^64, [decimal_point] what libclocale gives (None when it fails).
   The result is the return value and the characters afterwards. *)
Definition byte_size_string_create (decimal_point : option N) (target : option (list N)) (byte_size_string_length size units : N)
           (e : bool) : M (Z * option (list N)) :=
  match target with
  | None => r <- fail e E_ARGUMENT_INVALID_VALUE ;; ret (r, None)
  | Some target0 =>
      if byte_size_string_length <? 9 then r <- fail e E_ARGUMENT_VALUE_TOO_SMALL ;; ret (r, target)
      else
        let units_string : option (list N) :=
          if (size <? 1024) || (units =? 1000) then Some [66]
          else if units =? 1024 then Some [105; 66]
          else None in
        x <- lift (factor_loop 65 units size 0 0) ;;
        let '(factored_size, last_factored_size, factor) := x in
        let remainder :=
          if (units <=? size) && (factored_size <? 10) then to_int8 ((last_factored_size mod units) / 100) else (-1)%Z in
        if 8 <? factor then r <- fail e E_RUNTIME_UNSUPPORTED_VALUE ;; ret (r, target)
        else
          let remainder := if (9 <? remainder)%Z then 9%Z else remainder in
          match (if (0 <=? remainder)%Z
                 then match decimal_point with
                      | None => None
                      | Some d => Some ([d] ++ print_decimal (Z.to_N remainder))
                      end
                 else Some []) with
          | None => r <- fail e E_RUNTIME_GET_FAILED ;; ret (r, target)
          | Some fraction =>
              units_string <- lift units_string ;;
              x <- lift (snprintf target0 byte_size_string_length
                           (print_decimal factored_size ++ fraction ++ [32] ++ factor_string factor ++ units_string)) ;;
              let '(print_count, target1) := x in
              if (print_count <? 0)%Z || (byte_size_string_length <? Z.to_N print_count)
              then r <- fail e E_RUNTIME_SET_FAILED ;; ret (r, Some target1)
              else ret (1%Z, Some target1)
          end
  end.

Definition is_digit (c : N) : bool := (48 <=? c) && (c <=? 57).

(* byte_size_string.c:256-267: digits into byte_size, a uint64_t *)
Fixpoint scan_number (fuel : nat) (str : list N) (len : N) (i : nat) (byte_size : N) : option (nat * N) :=
  match fuel with
  | O => None
  | S f =>
      if N.of_nat i <? len then
        c <-? aget str i;
        if negb (is_digit c) then Some (i, byte_size)
        else scan_number f str len (S i) (((byte_size * 10) mod 2 ^ 64 + (c - 48)) mod 2 ^ 64)
      else Some (i, byte_size)
  end.

(* byte_size_string.c:290-298: ignored digits *)
Fixpoint skip_digits (fuel : nat) (str : list N) (len : N) (i : nat) : option nat :=
  match fuel with
  | O => None
  | S f =>
      if N.of_nat i <? len then
        c <-? aget str i;
        if negb (is_digit c) then Some i else skip_digits f str len (S i)
      else Some i
  end.

(* byte_size_string.c:268-299: the fraction; remainder is an int8_t that stays between -10 and 99 *)
Definition scan_fraction (str : list N) (len : N) (decimal_point : N) (i : nat) : option (nat * Z) :=
  c <-? aget str i;
  if negb (c =? decimal_point) then Some (i, (-1)%Z)
  else
    let i := S i in
    c <-? aget str i;
    let '(i, remainder) := if is_digit c then (S i, Z.of_N (c - 48)) else (i, (-1)%Z) in
    let remainder := (remainder * 10)%Z in
    c <-? aget str i;
    let '(i, remainder) := if is_digit c then (S i, (remainder + Z.of_N (c - 48))%Z) else (i, remainder) in
    i <-? skip_digits (S (length str)) str len i;
    Some (i, remainder).

(* byte_size_string.c:304-338 *)
Definition factor_of (c : N) : nat :=
  if (c =? 107) || (c =? 75) then 1
  else if (c =? 109) || (c =? 77) then 2
  else if (c =? 103) || (c =? 71) then 3
  else if (c =? 116) || (c =? 84) then 4
  else if (c =? 112) || (c =? 80) then 5
  else if (c =? 101) || (c =? 69) then 6
  else if (c =? 122) || (c =? 90) then 7
  else if (c =? 121) || (c =? 89) then 8
  else 0.

(* byte_size_string.c:354-381: the units and the iterator after them; None inside is the error *)
Definition scan_units (str : list N) (len : N) (i : nat) : option (option (N * nat)) :=
  if len <=? N.of_nat i then Some (Some (1024, i))
  else
    c <-? aget str i;
    if c =? 105 then
      d <-? aget str (S i);
      if d =? 66 then Some (Some (1024, (i + 2)%nat)) else Some None
    else if c =? 66 then Some (Some (1000, S i))
    else Some None.

(* byte_size_string.c:392-395 *)
Fixpoint scale (factor : nat) (units byte_size : N) : N :=
  match factor with O => byte_size | S f => scale f units ((byte_size * units) mod 2 ^ 64) end.

(* byte_size_string.c:207-419 byte_size_string_convert.  [string] are the characters accessible from byte_size_string;
   [size] says whether size is not NULL; [verbose] is HAVE_VERBOSE_OUTPUT, which reads one more character (406-414).
   The result is the return value and what is stored at size, None for nothing. *)
Definition byte_size_string_convert (verbose : bool) (decimal_point : option N) (string : option (list N))
           (byte_size_string_length : N) (size : bool) (e : bool) : M (Z * option N) :=
  match string with
  | None => r <- fail e E_ARGUMENT_INVALID_VALUE ;; ret (r, None)
  | Some str =>
      if negb size then r <- fail e E_ARGUMENT_INVALID_VALUE ;; ret (r, None)
      else match decimal_point with
      | None => r <- fail e E_RUNTIME_GET_FAILED ;; ret (r, None)
      | Some d =>
          let len := byte_size_string_length in
          x <- lift (scan_number (S (length str)) str len 0 0) ;;
          let '(i, byte_size) := x in
          x <- lift (scan_fraction str len d i) ;;
          let '(i, remainder) := x in
          c <- lift (aget str i) ;;
          let i := if c =? 32 then S i else i in
          c <- lift (aget str i) ;;
          let factor := factor_of c in
          let i := if Nat.ltb 1 factor then S i else i in
          u <- lift (scan_units str len i) ;;
          match u with
          | None => r <- fail e E_RUNTIME_VALUE_OUT_OF_BOUNDS ;; ret (r, None)
          | Some (units, i) =>
              let byte_size :=
                match factor with
                | O => byte_size
                | S f =>
                    if (0 <? remainder)%Z
                    then scale f units (((byte_size * units) mod 2 ^ 64 + Z.to_N remainder * 10) mod 2 ^ 64)
                    else scale factor units byte_size
                end in
              (if verbose then c <- lift (aget str i) ;; ret tt else ret tt) ;;;
              ret (1%Z, Some byte_size)
          end
      end
  end.
