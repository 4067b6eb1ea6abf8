(* Properties C31 to C34: digests and sizes as text (hmactools/digest_hash.c, hmactools/byte_size_string.c).
   The words used are defined in ToolVocab.v: [hex] is lower-case hexadecimal, [numeral n l] says that l is the decimal
   numeral of n, [point d] that d can be a decimal point, [scaled units size f q] that q is size / units^f and below units.
   A text that ends with an end of string is written [text ++ 0 :: rest]. *)
From Coq Require Import String Arith NArith ZArith List.
From Verif Require Import Words Spec Machine WordFacts Vocab ToolVocab ToolStrings ToolProofs.
Import ListNotations.
Open Scope N_scope.

(* ---- C31 *)
Theorem C31_hexadecimal : forall E dp n sp size e s, n <= ssize_max E -> 2 * n + 1 <= size <= ssize_max E ->
  good_state s -> accessible s dp n -> accessible s sp size -> fst dp <> fst sp ->
  exists s', digest_hash_copy_to_string E (Some dp) n (Some sp) size e s = Done 1%Z s' /\
  bytes_at s' sp (2 * n + 1) = hex (bytes_at s dp n) ++ [0] /\
  unchanged_but s s' sp (2 * n + 1) /\ errs s' = errs s /\ tries s' = tries s /\ length (mem s') = length (mem s).
Proof. exact hex_of_digest. Qed.
Print Assumptions C31_hexadecimal.

Theorem C31_rejected : forall E dp n sp size e s,
  dp = None \/ sp = None \/ ssize_max E < n \/ ssize_max E < size \/ size < 2 * n + 1 ->
  exists s', digest_hash_copy_to_string E dp n sp size e s = Done (-1)%Z s' /\ only_error e s s'.
Proof. exact copy_rejects. Qed.
Print Assumptions C31_rejected.

Theorem C31_different : forall m m', Forall is_byte m -> Forall is_byte m' -> m <> m' -> hex m <> hex m'.
Proof. exact hex_different. Qed.
Print Assumptions C31_different.

Theorem C31_characters : forall m, Forall is_byte m -> Forall (fun c => 48 <= c <= 57 \/ 97 <= c <= 102) (hex m).
Proof. exact hex_is_string. Qed.
Print Assumptions C31_characters.

Definition C31_env : env := mk_env false true (fun _ => true) (fun _ _ => 0) (fun _ _ => 0).
Definition C31_state : state :=
  mk_state [mk_cell true Heap (OBytes [0; 0x9a; 0xff]); mk_cell true Heap (OBytes [1; 1; 1; 1; 1; 1; 1; 1])] 0 [] [].
Example C31_example : hex [0; 0x9a; 0xff] = chars "009aff" /\
  digest_hash_copy_to_string C31_env (Some (0%nat, 0)) 3 (Some (1%nat, 1)) 7 true C31_state =
  Done 1%Z (mk_state [mk_cell true Heap (OBytes [0; 0x9a; 0xff]);
                      mk_cell true Heap (OBytes (1 :: chars "009aff" ++ [0]))] 0 [] []) /\
  digest_hash_copy_to_string C31_env (Some (0%nat, 0)) 3 (Some (1%nat, 1)) 6 true C31_state =
  Done (-1)%Z (mk_state (mem C31_state) 0 [E_ARGUMENT_VALUE_TOO_SMALL] []).
Proof. repeat split; reflexivity. Qed.

(* ---- C32: with units of 1000 the text is the size, rounded down to what is printed: 10 q + t is the number of whole
   tenths of the unit in the size, and t is printed when q is below 10 and a letter is used *)
Theorem C32_units_1000 : forall d target len size e s, size < 2 ^ 64 -> 9 <= len <= N.of_nat (length target) ->
  exists f q t number, scaled 1000 size f q /\ numeral q number /\ t < 10 /\ 10 * size / 1000 ^ f = 10 * q + (if f =? 0 then 0 else t) /\
  let text := size_text d 1000 f q t number in (length text <= 8)%nat /\
  byte_size_string_create (Some d) (Some target) len size 1000 e s =
  Done (1%Z, Some (text ++ [0] ++ skipn (S (length text)) target)) s.
Proof. exact create_1000. Qed.
Print Assumptions C32_units_1000.

(* Missing for units of 1024: the tenth may be one too many, because it is counted in hundreds and not in 102.4ths *)
Theorem C32_units_1024_partial : forall d target len size e s, size < 2 ^ 64 -> 9 <= len <= N.of_nat (length target) ->
  exists f q t number, scaled 1024 size f q /\ numeral q number /\ t < 10 /\
  10 * size / 1024 ^ f <= 10 * q + (if f =? 0 then 0 else t) <= 10 * size / 1024 ^ f + 1 /\
  let text := size_text d 1024 f q t number in (length text <= 8)%nat /\
  byte_size_string_create (Some d) (Some target) len size 1024 e s =
  Done (1%Z, Some (text ++ [0] ++ skipn (S (length text)) target)) s.
Proof. exact create_1024. Qed.
Print Assumptions C32_units_1024_partial.

Theorem C32_rounds_down_1024_refuted : forall e s, exists size, 10 * size / 1024 = 10 /\
  byte_size_string_create (Some 46) (Some (repeat 255 9)) 9 size 1024 e s = Done (1%Z, Some (chars "1.1 KiB" ++ [0; 255])) s.
Proof. exact create_1124. Qed.
Print Assumptions C32_rounds_down_1024_refuted.

Theorem C32_rejected : forall d target len size units e s, target = None \/ len < 9 ->
  exists s', byte_size_string_create d target len size units e s = Done ((-1)%Z, target) s' /\ only_error e s s'.
Proof. exact create_rejects. Qed.
Print Assumptions C32_rejected.

(* A locale without a decimal point matters only where the point is printed: then the call fails and the text stays as it was. *)
Theorem C32_no_point : forall target len size units e s, units = 1000 \/ units = 1024 -> size < 2 ^ 64 ->
  9 <= len <= N.of_nat (length target) ->
  exists f q, scaled units size f q /\
  (((f = 0 \/ 10 <= q) /\ forall d, byte_size_string_create None (Some target) len size units e s = byte_size_string_create (Some d) (Some target) len size units e s) \/
   (f <> 0 /\ q < 10 /\ exists s', byte_size_string_create None (Some target) len size units e s = Done ((-1)%Z, Some target) s' /\ only_error e s s')).
Proof. exact create_no_point. Qed.
Print Assumptions C32_no_point.

(* Units of other sizes are not refused: a text that was never assigned is printed, or the loop does not end. *)
Theorem C32_other_units_refuted : forall d target len e s, 9 <= len -> (forall units, 3 <= units < 1000 ->
  byte_size_string_create (Some d) (Some target) len 1024 units e s = Undef) /\
  byte_size_string_create (Some d) (Some target) len 1024 1 e s = Undef.
Proof. exact create_other_units. Qed.
Print Assumptions C32_other_units_refuted.

Example C32_example : forall e s,
  byte_size_string_create (Some 46) (Some (repeat 255 9)) 9 (2 ^ 64 - 1) 1024 e s = Done (1%Z, Some (chars "15 EiB" ++ [0; 255; 255])) s /\
  byte_size_string_create (Some 44) (Some (repeat 255 9)) 9 (2 ^ 50 - 1) 1024 e s = Done (1%Z, Some (chars "1023 TiB" ++ [0])) s /\
  byte_size_string_create (Some 44) (Some (repeat 255 9)) 9 9999999 1000 e s = Done (1%Z, Some (chars "9,9 MB" ++ [0; 255; 255])) s /\
  byte_size_string_create None (Some (repeat 255 9)) 9 10000 1000 e s = Done (1%Z, Some (chars "10 KB" ++ [0; 255; 255; 255])) s /\
  (exists s', byte_size_string_create None (Some (repeat 255 9)) 9 9999 1000 e s = Done ((-1)%Z, Some (repeat 255 9)) s').
Proof. repeat split; try reflexivity. destruct e, s; eexists; vm_compute; reflexivity. Qed.

(* ---- C33: what is accepted.  A number, a fraction, a space, a letter, a unit; everything but the number may be missing (and
   it too: an empty number is 0), and what follows a unit is ignored.
   Missing: the letter k, which is never accepted; and that a value that does not fit is refused. *)
Theorem C33_accepted_partial : forall verbose d ds fr r sp l f ut u tail rest e s, point d -> text_ok d ds fr r sp ->
  In (l, f) letters -> In (ut, u) units_texts \/ (ut = EmptyString /\ tail = [] /\ u = 1024) -> Forall (fun c => c <> 0) tail ->
  let t := ds ++ fr ++ sp ++ chars l ++ chars ut ++ tail in
  byte_size_string_convert verbose (Some d) (Some (t ++ 0 :: rest)) (N.of_nat (length t)) true e s =
  Done (1%Z, Some (parsed_value (value_of ds) r f u)) s.
Proof. exact convert_accepts. Qed.
Print Assumptions C33_accepted_partial.

(* without a fraction the value is the number times the multiplier if that fits *)
Theorem C33_value : forall verbose d ds sp l f ut u tail rest e s, point d -> Forall numeric ds -> sp = [] \/ sp = [32] ->
  In (l, f) letters -> In (ut, u) units_texts \/ (ut = EmptyString /\ tail = [] /\ u = 1024) -> Forall (fun c => c <> 0) tail ->
  value_of ds * u ^ f < 2 ^ 64 ->
  let t := ds ++ sp ++ chars l ++ chars ut ++ tail in
  byte_size_string_convert verbose (Some d) (Some (t ++ 0 :: rest)) (N.of_nat (length t)) true e s =
  Done (1%Z, Some (value_of ds * u ^ f)) s.
Proof. exact convert_exact. Qed.
Print Assumptions C33_value.

Example C33_example : forall e s,
  byte_size_string_convert true (Some 46) (Some (chars "12 MiB" ++ 0 :: [])) 6 true e s = Done (1%Z, Some (12 * 1024 * 1024)) s /\
  byte_size_string_convert true (Some 46) (Some (chars "007mB" ++ 0 :: [])) 5 true e s = Done (1%Z, Some 7000000) s /\
  byte_size_string_convert true (Some 46) (Some (chars "1.256G and more" ++ 0 :: [])) 15 true e s =
    Done ((-1)%Z, None) (MachineFacts.add_err e E_RUNTIME_VALUE_OUT_OF_BOUNDS s) /\
  byte_size_string_convert true (Some 46) (Some (chars "1.256GB and more" ++ 0 :: [])) 16 true e s = Done (1%Z, Some 1250000000) s.
Proof. repeat split; reflexivity. Qed.

(* for every text: it has one of these forms and its value is stored, or it is refused and nothing is stored *)
Theorem C33_every_text : forall verbose d t rest e s, point d -> Forall (fun c => c <> 0) t ->
  (exists ds fr r sp l f ut u tail, t = ds ++ fr ++ sp ++ chars l ++ chars ut ++ tail /\ text_ok d ds fr r sp /\
     In (l, f) letters /\ (In (ut, u) units_texts \/ (ut = EmptyString /\ tail = [] /\ u = 1024)) /\
     byte_size_string_convert verbose (Some d) (Some (t ++ 0 :: rest)) (N.of_nat (length t)) true e s =
     Done (1%Z, Some (parsed_value (value_of ds) r f u)) s) \/
  (exists s', byte_size_string_convert verbose (Some d) (Some (t ++ 0 :: rest)) (N.of_nat (length t)) true e s =
     Done ((-1)%Z, None) s' /\ only_error e s s').
Proof. exact convert_any. Qed.
Print Assumptions C33_every_text.

Theorem C33_rejected : forall verbose d str len size e s, str = None \/ size = false \/ d = None ->
  exists s', byte_size_string_convert verbose d str len size e s = Done ((-1)%Z, None) s' /\ only_error e s s'.
Proof. exact convert_rejects. Qed.
Print Assumptions C33_rejected.

(* the letter k, in either case and with any unit, is refused always *)
Theorem C33_kilo_refuted : forall verbose d ds fr r sp k tail rest e s, point d -> text_ok d ds fr r sp ->
  k = 75 \/ k = 107 -> Forall (fun c => c <> 0) tail ->
  let t := ds ++ fr ++ sp ++ k :: tail in
  exists s', byte_size_string_convert verbose (Some d) (Some (t ++ 0 :: rest)) (N.of_nat (length t)) true e s =
  Done ((-1)%Z, None) s' /\ only_error e s s'.
Proof. exact convert_kilo. Qed.
Print Assumptions C33_kilo_refuted.

(* a value of 2^64 or more is reduced modulo 2^64 and reported as success, always *)
Theorem C33_wraps_refuted : forall verbose d ds sp l f ut u tail rest e s, point d -> Forall numeric ds -> sp = [] \/ sp = [32] ->
  In (l, f) letters -> In (ut, u) units_texts \/ (ut = EmptyString /\ tail = [] /\ u = 1024) -> Forall (fun c => c <> 0) tail ->
  let t := ds ++ sp ++ chars l ++ chars ut ++ tail in
  byte_size_string_convert verbose (Some d) (Some (t ++ 0 :: rest)) (N.of_nat (length t)) true e s =
  Done (1%Z, Some ((value_of ds * u ^ f) mod 2 ^ 64)) s.
Proof. exact convert_wraps. Qed.
Print Assumptions C33_wraps_refuted.

Example C33_refuted_example : forall e s,
  byte_size_string_convert false (Some 46) (Some (chars "64 KiB" ++ 0 :: [])) 6 true e s =
    Done ((-1)%Z, None) (MachineFacts.add_err e E_RUNTIME_VALUE_OUT_OF_BOUNDS s) /\
  byte_size_string_convert false (Some 46) (Some (chars "16E" ++ 0 :: [])) 3 true e s = Done (1%Z, Some 0) s /\
  byte_size_string_convert false (Some 46) (Some (chars "18446744073709551617" ++ 0 :: [])) 20 true e s = Done (1%Z, Some 1) s /\
  byte_size_string_convert false (Some 46) (Some (chars "" ++ 0 :: [])) 0 true e s = Done (1%Z, Some 0) s.
Proof. repeat split; reflexivity. Qed.

(* ---- C34: a created text is accepted and gives the size again up to an eighth (a tenth with units of 1000), exactly when
   no letter is used.  Missing: sizes that are printed with the letter K. *)
Theorem C34_round_trip_partial : forall verbose d target target' len size units e s,
  point d -> units = 1000 \/ units = 1024 -> size < 2 ^ 64 ->
  size < units \/ units * units <= size -> 9 <= len <= N.of_nat (length target) ->
  byte_size_string_create (Some d) (Some target) len size units e s = Done (1%Z, Some target') s ->
  exists text rest v, target' = text ++ 0 :: rest /\ Forall (fun c => c <> 0) text /\
  byte_size_string_convert verbose (Some d) (Some target') (N.of_nat (length text)) true e s = Done (1%Z, Some v) s /\
  v <= size /\ 8 * (size - v) <= size /\ (units = 1000 -> 10 * (size - v) <= size) /\ (size < units -> v = size).
Proof. exact round_trip. Qed.
Print Assumptions C34_round_trip_partial.

(* these are refused always *)
Theorem C34_kilo_refuted : forall verbose d target target' len size units e s, point d -> units = 1000 \/ units = 1024 ->
  units <= size < units * units -> 9 <= len <= N.of_nat (length target) ->
  byte_size_string_create (Some d) (Some target) len size units e s = Done (1%Z, Some target') s ->
  exists text rest s', target' = text ++ 0 :: rest /\ Forall (fun c => c <> 0) text /\
  byte_size_string_convert verbose (Some d) (Some target') (N.of_nat (length text)) true e s = Done ((-1)%Z, None) s' /\ only_error e s s'.
Proof. exact round_trip_refused. Qed.
Print Assumptions C34_kilo_refuted.

Example C34_example : forall e s,
  byte_size_string_create (Some 46) (Some (repeat 255 9)) 9 3456789 1000 e s = Done (1%Z, Some (chars "3.4 MB" ++ 0 :: [255; 255])) s /\
  byte_size_string_convert false (Some 46) (Some (chars "3.4 MB" ++ 0 :: [255; 255])) 6 true e s = Done (1%Z, Some 3400000) s /\
  byte_size_string_create (Some 46) (Some (repeat 255 9)) 9 65536 1024 e s = Done (1%Z, Some (chars "64 KiB" ++ 0 :: [255; 255])) s.
Proof. repeat split; reflexivity. Qed.
