(* Vocabulary for the statements about the command line tools.  No proofs. *)
From Coq Require Import String Ascii Arith NArith ZArith List Bool.
From Verif Require Import Words Machine.
Import ListNotations.
Open Scope N_scope.

(* the characters of a text *)
Definition chars (t : string) : list N := map N_of_ascii (list_ascii_of_string t).

(* lower-case hexadecimal, two digits for each byte *)
Definition hex_digit (n : N) : N := nth (N.to_nat n) (chars "0123456789abcdef") 0.
Definition hex (m : list N) : list N := flat_map (fun b => [hex_digit (b / 16); hex_digit (b mod 16)]) m.

(* decimal numerals *)
Definition numeric (c : N) : Prop := 48 <= c <= 57.
Definition value_of (l : list N) : N := fold_left (fun v c => v * 10 + (c - 48)) l 0.
Definition numeral (n : N) (l : list N) : Prop :=
  Forall numeric l /\ value_of l = n /\ l <> [] /\ ((2 <= length l)%nat -> hd 0 l <> 48).

(* a decimal point character: none of the other characters of a size *)
Definition point (d : N) : Prop :=
  d <> 0 /\ d <> 32 /\ ~ numeric d /\ ~ (65 <= d <= 90) /\ ~ (97 <= d <= 122).

(* the prefix letter of a power of the unit *)
Definition prefix_letter (f : N) : list N :=
  match f with
  | 0 => [] | 1 => chars "K" | 2 => chars "M" | 3 => chars "G" | 4 => chars "T"
  | 5 => chars "P" | 6 => chars "E" | 7 => chars "Z" | 8 => chars "Y" | _ => []
  end.

(* the unit after the prefix letter *)
Definition unit_text (units : N) : list N := if units =? 1000 then chars "B" else chars "iB".

(* the number q and power f that a size is printed with *)
Definition scaled (units size f q : N) : Prop :=
  q = size / units ^ f /\ q < units /\ (f = 0 \/ 1 <= q).

(* the text of a size: the number, with one digit after the point when it is below 10 and a power is used, a space,
   the letter and the unit *)
Definition size_text (d units f q t : N) (number : list N) : list N :=
  number ++ (if (f =? 0) || (10 <=? q) then [] else [d; 48 + t])
         ++ chars " " ++ prefix_letter f ++ (if f =? 0 then chars "B" else unit_text units).

(* the endings of a size that the parser knows, with their power and unit; the letter in either case *)
Definition letters : list (string * N) :=
  [("m", 2); ("M", 2); ("g", 3); ("G", 3); ("t", 4); ("T", 4); ("p", 5); ("P", 5);
   ("e", 6); ("E", 6); ("z", 7); ("Z", 7); ("y", 8); ("Y", 8); (EmptyString, 0)]%string.
Definition units_texts : list (string * N) := [("B", 1000); ("iB", 1024)]%string.

(* hundredths written after a decimal point; only two digits count *)
Definition hundredths (fs : list N) : N :=
  match fs with
  | [] => 0
  | a :: [] => 10 * (a - 48)
  | a :: b :: _ => 10 * (a - 48) + (b - 48)
  end.
(* a fraction: nothing, or a decimal point and digits *)
Definition fraction (d : N) (text : list N) (r : N) : Prop :=
  text = [] /\ r = 0 \/ exists fs, text = d :: fs /\ Forall numeric fs /\ r = hundredths fs.

(* a number, a fraction and a space, of which any may be missing *)
Definition text_ok (d : N) (ds fr : list N) (r : N) (sp : list N) : Prop :=
  Forall numeric ds /\ fraction d fr r /\ (sp = [] \/ sp = [32]).

(* what the parser makes of a number, hundredths, power and unit: 64-bit arithmetic *)
Definition parsed_value (n r f units : N) : N :=
  if f =? 0 then n mod 2 ^ 64 else (n * units ^ f + r * 10 * units ^ (f - 1)) mod 2 ^ 64.

(* nothing changed but one entry more in the error object, if there is one *)
Definition only_error (e : bool) (s s' : state) : Prop :=
  mem s' = mem s /\ tries s' = tries s /\ resid s' = resid s /\ exists k, errs s' = if e then errs s ++ [k] else errs s.
