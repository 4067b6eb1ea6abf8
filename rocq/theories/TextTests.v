(* Tests of the meaning of C in CText.v, on values at the borders of the types; the references are to C11. *)
From Coq Require Import NArith ZArith List String.
From Verif Require Import Words Machine CText.
Import ListNotations.
Open Scope string_scope.
Open Scope list_scope.
Open Scope N_scope.

Section Tests.
  Let E64 : env := mk_env false true (fun _ => true) (fun _ _ => 0) (fun _ _ => 0).
  Let E32 : env := mk_env false false (fun _ => true) (fun _ _ => 0) (fun _ _ => 0).
  Let s0 : state := mk_state [] 0 [] [].
  Let P : program := Build_program [] [] [] true.
  Let call (f : string) (l : list val) : M (val * list (option val)) := undef.
  (* the value of a op b *)
  Let op (E : env) (o : bop) (a b : val) : option val :=
    match eval E P call (EBin o (EVar "a") (EVar "b")) [("a", a); ("b", b)] s0 with Done (v, _) _ => Some v | Undef => None end.

  (* 6.5p5: a signed result that is not representable; 6.2.5p9: unsigned results wrap *)
  Example signed_overflow : op E64 OAdd (VS R32 0x7fffffff) (VS R32 1) = None /\ op E64 OAdd (VS R32 0x7ffffffe) (VS R32 1) = Some (VS R32 0x7fffffff) /\
    op E64 OSub (VS R32 (-0x80000000)) (VS R32 1) = None /\ op E64 OMul (VS R64 0x4000000000000000) (VS R32 2) = None.
  Proof. vm_compute. repeat split; reflexivity. Qed.
  Example unsigned_wraps : op E64 OAdd (VU R32 0xffffffff) (VU R32 1) = Some (VU R32 0) /\ op E64 OSub (VU RSz 0) (VU RSz 1) = Some (VU RSz 0xffffffffffffffff) /\
    op E32 OSub (VU RSz 0) (VU RSz 1) = Some (VU RSz 0xffffffff) /\ op E64 OMul (VU R64 0x8000000000000001) (VU R64 2) = Some (VU R64 2).
  Proof. vm_compute. repeat split; reflexivity. Qed.
  (* 6.3.1.1: uint8_t becomes int; 6.3.1.8: int against a wider unsigned type is converted *)
  Example promoted : op E64 OSub (VU R8 0) (VU R8 1) = Some (VS R32 (-1)) /\ op E64 OAdd (VU R8 255) (VU R8 1) = Some (VS R32 256) /\
    op E64 OLt (VS R32 (-1)) (VU R32 1) = Some (VS R32 0) /\ op E64 OLt (VS R32 (-1)) (VS R32 1) = Some (VS R32 1) /\
    op E64 OEq (VU R64 0xffffffffffffffff) (VS R32 (-1)) = Some (VS R32 1).
  Proof. vm_compute. repeat split; reflexivity. Qed.
  (* 6.5.5: division *)
  Example divided : op E64 ODiv (VU R32 7) (VU R32 0) = None /\ op E64 OMod (VS R32 7) (VS R32 0) = None /\ op E64 ODiv (VS R32 (-7)) (VS R32 2) = Some (VS R32 (-3)) /\
    op E64 OMod (VS R32 (-7)) (VS R32 2) = Some (VS R32 (-1)) /\ op E64 ODiv (VS R32 (-0x80000000)) (VS R32 (-1)) = None.
  Proof. vm_compute. repeat split; reflexivity. Qed.
  (* 6.5.7: shifts *)
  Example shifted : op E64 OShl (VU R32 1) (VS R32 31) = Some (VU R32 0x80000000) /\ op E64 OShl (VU R32 1) (VS R32 32) = None /\ op E64 OShr (VU R64 1) (VS R32 64) = None /\
    op E64 OShl (VU R8 255) (VS R32 24) = None /\ op E64 OShl (VU R8 127) (VS R32 24) = Some (VS R32 0x7f000000) /\ op E64 OShl (VU R32 1) (VS R32 (-1)) = None /\
    op E64 OShl (VU R32 0xffffffff) (VS R32 4) = Some (VU R32 0xfffffff0).
  Proof. vm_compute. repeat split; reflexivity. Qed.
  (* 6.3.1.3: conversions by assignment *)
  Example converted : convert E64 false R8 (VS R32 (-1)) = Some (VU R8 255) /\ convert E64 false RSz (VS R32 (-1)) = Some (VU RSz 0xffffffffffffffff) /\
    convert E32 false RSz (VU R64 0x100000001) = Some (VU RSz 1) /\ convert E64 false R32 (VU R64 0x100000002) = Some (VU R32 2).
  Proof. vm_compute. repeat split; reflexivity. Qed.
End Tests.
