(** The RFC 1321 appendix A.5 test suite for [md5]: evidence that the concrete definition is MD5. *)
From Coq Require Import String List NArith Strings.Byte.
From Verif Require Import Prelude Md5.
Import ListNotations.
Local Open Scope N_scope.

Definition hex_digit (n : N) : byte := if n <? 10 then n2b (48 + n) else n2b (87 + n).
Definition hex (bs : bytes) : string :=
  string_of_bytes (flat_map (fun b => [hex_digit (b2n b / 16); hex_digit (b2n b mod 16)]) bs).
Definition md5hex (s : string) : string := hex (md5 (bytes_of_string s)).

Example md5_rfc1321_1 : md5hex "" = "d41d8cd98f00b204e9800998ecf8427e"%string.
Proof. vm_compute. reflexivity. Qed.
Example md5_rfc1321_2 : md5hex "a" = "0cc175b9c0f1b6a831c399e269772661"%string.
Proof. vm_compute. reflexivity. Qed.
Example md5_rfc1321_3 : md5hex "abc" = "900150983cd24fb0d6963f7d28e17f72"%string.
Proof. vm_compute. reflexivity. Qed.
Example md5_rfc1321_4 : md5hex "message digest" = "f96b697d7cb7938d525a2f31aaf161d0"%string.
Proof. vm_compute. reflexivity. Qed.
Example md5_rfc1321_5 : md5hex "abcdefghijklmnopqrstuvwxyz" = "c3fcd3d76192e4007dfb496cca67e13b"%string.
Proof. vm_compute. reflexivity. Qed.
Example md5_rfc1321_6 :
  md5hex "ABCDEFGHIJKLMNOPQRSTUVWXYZabcdefghijklmnopqrstuvwxyz0123456789"
  = "d174ab98d277d9f5a5611c2c9f419d9f"%string.
Proof. vm_compute. reflexivity. Qed.
Example md5_rfc1321_7 :
  md5hex "12345678901234567890123456789012345678901234567890123456789012345678901234567890"
  = "57edf4a22be3c955ac49da2e2107b67a"%string.
Proof. vm_compute. reflexivity. Qed.
(** block boundaries: 55, 56, 63, 64, 65, 119, 120 bytes of 'a' (values computed with an
    independent implementation) *)
Example md5_a_55 : hex (md5 (repeat (n2b 97) 55)) = "ef1772b6dff9a122358552954ad0df65"%string.
Proof. vm_compute. reflexivity. Qed.
Example md5_a_56 : hex (md5 (repeat (n2b 97) 56)) = "3b0c8ac703f828b04c6c197006d17218"%string.
Proof. vm_compute. reflexivity. Qed.
Example md5_a_63 : hex (md5 (repeat (n2b 97) 63)) = "b06521f39153d618550606be297466d5"%string.
Proof. vm_compute. reflexivity. Qed.
Example md5_a_64 : hex (md5 (repeat (n2b 97) 64)) = "014842d480b571495a4a0363793f7367"%string.
Proof. vm_compute. reflexivity. Qed.
Example md5_a_65 : hex (md5 (repeat (n2b 97) 65)) = "c743a45e0d2e6a95cb859adae0248435"%string.
Proof. vm_compute. reflexivity. Qed.
Example md5_a_119 : hex (md5 (repeat (n2b 97) 119)) = "8a7bd0732ed6a28ce75f6dabc90e1613"%string.
Proof. vm_compute. reflexivity. Qed.
Example md5_a_120 : hex (md5 (repeat (n2b 97) 120)) = "5f61c0ccad4cac44c75ff505e1f1e537"%string.
Proof. vm_compute. reflexivity. Qed.
Example md5_a_300 : hex (md5 (repeat (n2b 97) 300)) = "4e5475d125a33c6190718e75adc1b704"%string.
Proof. vm_compute. reflexivity. Qed.
