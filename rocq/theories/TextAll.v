(* The five pairs of files, and how their functions are called. *)
From Coq Require Import NArith ZArith List String.
From Verif Require Import Machine CText TextMd5 TextSha1 TextSha224 TextSha256 TextSha512.
Import ListNotations.
Open Scope string_scope.
Open Scope list_scope.
Open Scope N_scope.

(* libhmac/libhmac_X_context.c and libhmac/libhmac_X.c *)
Definition text_of (a : algid) (unfolled : bool) : program :=
  match a with
  | MD5 => md5_text unfolled
  | SHA1 => sha1_text unfolled
  | SHA224 => sha224_text unfolled
  | SHA256 => sha256_text unfolled
  | SHA512 => sha512_text unfolled
  end.

(* libhmac_X_... and libhmac_X_context_... *)
Definition name_of (a : algid) (f : string) : string :=
  String.append
    (match a with
     | MD5 => "libhmac_md5_" | SHA1 => "libhmac_sha1_" | SHA224 => "libhmac_sha224_"
     | SHA256 => "libhmac_sha256_" | SHA512 => "libhmac_sha512_"
     end) f.

(* arguments as C values: a pointer to a context, a place for such a pointer, a pointer to
   bytes, a size, an error pointer *)
Definition v_ctx (a : algid) (p : option nat) : val := match p with Some q => VCtx a q | None => VNull end.
Definition v_place (a : algid) (p : option (option nat)) : val :=
  match p with Some q => VRef (v_ctx a q) | None => VNull end.
Definition v_bytes (p : option ptr) : val := match p with Some q => VBytes q | None => VNull end.
Definition v_size (n : N) : val := VU RSz n.
Definition v_error (e : bool) : val := if e then VErr else VNull.

(* run a function of the files of [a] as they stand for the build described by [E] *)
Definition run_text (E : env) (fuel : nat) (a : algid) (f : string) (args : list val)
  : M (val * list (option val)) :=
  call_text E (text_of a (unrolled E)) fuel 3 (name_of a f) args.
