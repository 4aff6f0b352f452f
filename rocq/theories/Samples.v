(** Concrete data used by the non-vacuity examples: RFC 2865 sections 7.1 and 7.2
    (also radius/src/core/packet.rs:466-525). *)
From Coq Require Import String List NArith Strings.Byte.
From Verif Require Import Prelude Md5 Code Avp Attributes Packet.
Import ListNotations.
Local Open Scope N_scope.

Definition nb (l : list N) : bytes := map n2b l.
Definition sample_secret : bytes := bytes_of_string "xyzzy5461".
Definition sample_request : bytes := nb [
  0x01; 0x00; 0x00; 0x38; 0x0f; 0x40; 0x3f; 0x94; 0x73; 0x97; 0x80; 0x57; 0xbd; 0x83;
  0xd5; 0xcb; 0x98; 0xf4; 0x22; 0x7a; 0x01; 0x06; 0x6e; 0x65; 0x6d; 0x6f; 0x02; 0x12;
  0x0d; 0xbe; 0x70; 0x8d; 0x93; 0xd4; 0x13; 0xce; 0x31; 0x96; 0xe4; 0x3f; 0x78; 0x2a;
  0x0a; 0xee; 0x04; 0x06; 0xc0; 0xa8; 0x01; 0x10; 0x05; 0x06; 0x00; 0x00; 0x00; 0x03 ].
Definition sample_response : bytes := nb [
  0x02; 0x00; 0x00; 0x26; 0x86; 0xfe; 0x22; 0x0e; 0x76; 0x24; 0xba; 0x2a; 0x10; 0x05;
  0xf6; 0xbf; 0x9b; 0x55; 0xe0; 0xb2; 0x06; 0x06; 0x00; 0x00; 0x00; 0x01; 0x0f; 0x06;
  0x00; 0x00; 0x00; 0x00; 0x0e; 0x06; 0xc0; 0xa8; 0x01; 0x03 ].
Definition sample_authenticator : bytes := firstn 16 (skipn 4 sample_request).
Definition sample_attributes : list avp := [
  AVP (n2b 1) (bytes_of_string "nemo");
  AVP (n2b 2) (firstn 16 (skipn 28 sample_request));
  AVP (n2b 4) (nb [192; 168; 1; 16]);
  AVP (n2b 5) (nb [0; 0; 0; 3]) ].
Definition sample_packet : packet :=
  Packet AccessRequest x00 sample_authenticator sample_secret sample_attributes.
Definition sample_reply_attributes : list avp := [
  AVP (n2b 6) (nb [0; 0; 0; 1]); AVP (n2b 15) (nb [0; 0; 0; 0]); AVP (n2b 14) (nb [192; 168; 1; 3]) ].
Definition sample_accounting : packet :=
  packet_extend (packet_new_with_identifier (fun i => n2b (N.of_nat i)) AccountingRequest sample_secret (n2b 7))
    [AVP (n2b 40) (nb [0; 0; 0; 1]); AVP (n2b 44) (bytes_of_string "sess-1")].

(** a packet whose attributes occupy exactly 65536 bytes, and one with 65530 bytes *)
Definition wrap_attributes : list avp :=
  repeat (AVP (n2b 18) (repeat (n2b 65) 253)) 256 ++ repeat (AVP (n2b 18) (repeat (n2b 65) 126)) 2.
Definition wrap_packet : packet :=
  packet_extend (packet_new_with_identifier (fun _ => x00) AccessRequest sample_secret x00) wrap_attributes.
Definition overflow_attributes : list avp :=
  repeat (AVP (n2b 18) (repeat (n2b 65) 253)) 256 ++ [AVP (n2b 18) (repeat (n2b 65) 248)].
Definition overflow_packet : packet :=
  packet_extend (packet_new_with_identifier (fun _ => x00) AccessRequest sample_secret x00) overflow_attributes.

(** [ok_with p f]: the result is [Ok] of bytes satisfying a boolean test (avoids writing out
    65 kB of literals in the examples). *)
Definition ok_with {E} (r : res E bytes) (f : bytes -> bool) : bool :=
  match r with Ok bs => f bs | _ => false end.
Lemma ok_with_elim : forall {E} (r : res E bytes) f,
  ok_with r f = true -> exists bs, r = Ok bs /\ f bs = true.
Proof. intros E r f. destruct r; cbn; try discriminate. eauto. Qed.
