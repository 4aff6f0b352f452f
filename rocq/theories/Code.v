(** * radius/src/core/code.rs *)
From Coq Require Import NArith Bool Strings.Byte String.
From Verif Require Import Prelude.
Local Open Scope N_scope.

(** radius/src/core/code.rs:7-24 *)
Inductive code :=
| AccessRequest | AccessAccept | AccessReject | AccountingRequest | AccountingResponse
| AccessChallenge | StatusServer | StatusClient | DisconnectRequest | DisconnectACK
| DisconnectNAK | CoARequest | CoAACK | CoANAK | Reserved | Invalid.

(** [code as u8], radius/src/core/code.rs:8-23 *)
Definition code_to_u8 (c : code) : byte :=
  n2b match c with
      | AccessRequest => 1 | AccessAccept => 2 | AccessReject => 3
      | AccountingRequest => 4 | AccountingResponse => 5
      | AccessChallenge => 11 | StatusServer => 12 | StatusClient => 13
      | DisconnectRequest => 40 | DisconnectACK => 41 | DisconnectNAK => 42
      | CoARequest => 43 | CoAACK => 44 | CoANAK => 45
      | Reserved => 255 | Invalid => 0
      end.

(** radius/src/core/code.rs:27-46 *)
Definition code_string (c : code) : string :=
  match c with
  | AccessRequest => "Access-Request"
  | AccessAccept => "Access-Accept"
  | AccessReject => "Access-Reject"
  | AccountingRequest => "Accounting-Request"
  | AccountingResponse => "Accounting-Response"
  | AccessChallenge => "Access-Challenge"
  | StatusServer => "Status-Server"
  | StatusClient => "Status-Client"
  | DisconnectRequest => "Disconnect-Request"
  | DisconnectACK => "Disconnect-ACK"
  | DisconnectNAK => "Disconnect-NAK"
  | CoARequest => "CoA-Request"
  | CoAACK => "CoA-ACK"
  | CoANAK => "CoA-NAK"
  | Reserved => "Reserved"
  | Invalid => "Invalid"
  end.

(** [derive(Debug)] of Code, radius/src/core/code.rs:5: the constructor name. *)
Definition code_debug (c : code) : string :=
  match c with
  | AccessRequest => "AccessRequest"
  | AccessAccept => "AccessAccept"
  | AccessReject => "AccessReject"
  | AccountingRequest => "AccountingRequest"
  | AccountingResponse => "AccountingResponse"
  | AccessChallenge => "AccessChallenge"
  | StatusServer => "StatusServer"
  | StatusClient => "StatusClient"
  | DisconnectRequest => "DisconnectRequest"
  | DisconnectACK => "DisconnectACK"
  | DisconnectNAK => "DisconnectNAK"
  | CoARequest => "CoARequest"
  | CoAACK => "CoAACK"
  | CoANAK => "CoANAK"
  | Reserved => "Reserved"
  | Invalid => "Invalid"
  end.

(** [Code::try_from(u8)], derived by num_enum from the discriminants, code.rs:5-24. *)
Definition code_try_from (value : byte) : option code :=
  match b2n value with
  | 1 => Some AccessRequest
  | 2 => Some AccessAccept
  | 3 => Some AccessReject
  | 4 => Some AccountingRequest
  | 5 => Some AccountingResponse
  | 11 => Some AccessChallenge
  | 12 => Some StatusServer
  | 13 => Some StatusClient
  | 40 => Some DisconnectRequest
  | 41 => Some DisconnectACK
  | 42 => Some DisconnectNAK
  | 43 => Some CoARequest
  | 44 => Some CoAACK
  | 45 => Some CoANAK
  | 255 => Some Reserved
  | 0 => Some Invalid
  | _ => None
  end.

(** radius/src/core/code.rs:48-53 *)
Definition code_from (value : byte) : code :=
  match code_try_from value with
  | Some c => c
  | None => Invalid
  end.
