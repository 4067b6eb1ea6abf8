(* Tests of the specification on published test vectors (RFC 1321, RFC 2202, RFC 4231, FIPS 180).
   The values are computed through the model, which is proved equal (ModelEval.v) and runs faster. *)
From Coq Require Import String Ascii NArith List.
From Verif Require Import Spec Machine Vocab Demo ModelEval.
Import ListNotations.
Open Scope N_scope.

Example md5_empty : spec_hash MD5 [] = be_bytes 16 0xd41d8cd98f00b204e9800998ecf8427e.
Proof. apply (spec_eval MD5); vm_compute; reflexivity. Qed.
Example md5_abc : spec_hash MD5 (text "abc") = be_bytes 16 0x900150983cd24fb0d6963f7d28e17f72.
Proof. apply (spec_eval MD5); vm_compute; reflexivity. Qed.
Example md5_long : spec_hash MD5 (text "12345678901234567890123456789012345678901234567890123456789012345678901234567890")
  = be_bytes 16 0x57edf4a22be3c955ac49da2e2107b67a.
Proof. apply (spec_eval MD5); vm_compute; reflexivity. Qed.
Example sha1_abc : spec_hash SHA1 (text "abc") = be_bytes 20 0xa9993e364706816aba3e25717850c26c9cd0d89d.
Proof. apply (spec_eval SHA1); vm_compute; reflexivity. Qed.
Example sha1_448 : spec_hash SHA1 (text "abcdbcdecdefdefgefghfghighijhijkijkljklmklmnlmnomnopnopq")
  = be_bytes 20 0x84983e441c3bd26ebaae4aa1f95129e5e54670f1.
Proof. apply (spec_eval SHA1); vm_compute; reflexivity. Qed.
Example sha224_abc : spec_hash SHA224 (text "abc") = be_bytes 28 0x23097d223405d8228642a477bda255b32aadbce4bda0b3f7e36c9da7.
Proof. apply (spec_eval SHA224); vm_compute; reflexivity. Qed.
Example sha256_abc : spec_hash SHA256 (text "abc") = be_bytes 32 0xba7816bf8f01cfea414140de5dae2223b00361a396177a9cb410ff61f20015ad.
Proof. apply (spec_eval SHA256); vm_compute; reflexivity. Qed.
Example sha256_448 : spec_hash SHA256 (text "abcdbcdecdefdefgefghfghighijhijkijkljklmklmnlmnomnopnopq")
  = be_bytes 32 0x248d6a61d20638b8e5c026930c3e6039a33ce45964ff2167f6ecedd419db06c1.
Proof. apply (spec_eval SHA256); vm_compute; reflexivity. Qed.
Example sha512_abc : spec_hash SHA512 (text "abc")
  = be_bytes 64 0xddaf35a193617abacc417349ae20413112e6fa4e89a97ea20a9eeee64b55d39a2192992a274fc1a836ba3c23a3feebbd454d4423643ce80e2a9ac94fa54ca49f.
Proof. apply (spec_eval SHA512); vm_compute; reflexivity. Qed.
Example hmac_md5_1 : spec_hmac MD5 (repeat 0x0b 16) (text "Hi There") = be_bytes 16 0x9294727a3638bb1c13f48ef8158bfc9d.
Proof. apply spec_hmac_eval; vm_compute; reflexivity. Qed.
Example hmac_sha1_1 : spec_hmac SHA1 (repeat 0x0b 20) (text "Hi There") = be_bytes 20 0xb617318655057264e28bc0b6fb378c8ef146be00.
Proof. apply spec_hmac_eval; vm_compute; reflexivity. Qed.
Example hmac_sha256_1 : spec_hmac SHA256 (repeat 0x0b 20) (text "Hi There")
  = be_bytes 32 0xb0344c61d8db38535ca8afceaf0bf12b881dc200c9833da726e9376c2e32cff7.
Proof. apply spec_hmac_eval; vm_compute; reflexivity. Qed.
Example hmac_sha256_6 : spec_hmac SHA256 (repeat 0xaa 131) demo_long
  = be_bytes 32 0x60e431591ee0b67f0d8a26aacbf5b77f8e0bc6213728c5140546040f0ee37f54.
Proof. apply spec_hmac_eval; vm_compute; reflexivity. Qed.
