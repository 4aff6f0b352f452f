(** * Debug and Display renderings *)
From Coq Require Import String Ascii List NArith Bool Strings.Byte.
From Verif Require Import Prelude Code Avp Attributes Packet.
Import ListNotations.
Local Open Scope N_scope.
Local Open Scope string_scope.

(** What [fmt::Formatter]'s [debug_struct], [debug_tuple] and [debug_list] helpers are given.
    Simplification: strings are rendered without escapes; the only one is ["*redacted*"]. *)
Inductive dbg :=
| DAtom (s : string)
| DStruct (name : string) (fields : list (string * dbg))
| DTuple (name : string) (fields : list dbg)
| DList (items : list dbg).

Definition sep_by (sep : string) (l : list string) : string := String.concat sep l.

(** [{:?}] (std): [Name { f: v, g: w }], [Name(v)], [[v, w]] *)
Fixpoint render (d : dbg) : string :=
  match d with
  | DAtom s => s
  | DStruct name fields =>
      if match fields with [] => true | _ => false end then name
      else name ++ " { " ++ sep_by ", " (map (fun '(f, v) => f ++ ": " ++ render v) fields) ++ " }"
  | DTuple name fields =>
      if match fields with [] => true | _ => false end then name
      else name ++ "(" ++ sep_by ", " (map render fields) ++ ")"
  | DList items => "[" ++ sep_by ", " (map render items) ++ "]"
  end.

Definition newline : string := String (ascii_of_N 10) EmptyString.
(** [{:#?}] (std): one field per line, indented by four blanks, each followed by a comma *)
Fixpoint render_pretty (indent : string) (d : dbg) : string :=
  let inner := indent ++ "    " in
  match d with
  | DAtom s => s
  | DStruct name fields =>
      if match fields with [] => true | _ => false end then name
      else name ++ " {" ++ newline
           ++ String.concat "" (map (fun '(f, v) =>
                inner ++ f ++ ": " ++ render_pretty inner v ++ "," ++ newline) fields)
           ++ indent ++ "}"
  | DTuple name fields =>
      if match fields with [] => true | _ => false end then name
      else name ++ "(" ++ newline
           ++ String.concat "" (map (fun v => inner ++ render_pretty inner v ++ "," ++ newline) fields)
           ++ indent ++ ")"
  | DList items =>
      if match items with [] => true | _ => false end then "[]"
      else "[" ++ newline
           ++ String.concat "" (map (fun v => inner ++ render_pretty inner v ++ "," ++ newline) items)
           ++ indent ++ "]"
  end.

Definition quote (s : string) : string := """" ++ s ++ """".

(** [u8], [Vec<u8>] *)
Definition byte_dbg (b : byte) : dbg := DAtom (dec (b2n b)).
Definition bytes_dbg (bs : bytes) : dbg := DList (map byte_dbg bs).
(** avp.rs:64 [derive(Debug)] *)
Definition avp_dbg (a : avp) : dbg :=
  DStruct "AVP" [("typ", byte_dbg (avp_typ a)); ("value", bytes_dbg (avp_value a))].
(** attributes.rs:3 [derive(Debug)] *)
Definition attributes_dbg (l : attributes) : dbg := DTuple "Attributes" [DList (map avp_dbg l)].
(** packet.rs:442-452 *)
Definition packet_dbg (p : packet) : dbg :=
  DStruct "Packet" [
    ("code", DAtom (code_debug (p_code p)));
    ("identifier", byte_dbg (p_identifier p));
    ("authenticator", bytes_dbg (p_authenticator p));
    ("secret", DAtom (quote "*redacted*"));
    ("attributes", attributes_dbg (p_attributes p)) ].
Definition packet_debug (p : packet) : string := render (packet_dbg p).
Definition packet_debug_alternate (p : packet) : string := render_pretty "" (packet_dbg p).

(** packet.rs:20-49 [#[error(...)]] *)
Definition packet_error_display (e : packet_error) : string :=
  match e with
  | InsufficientPacketPayloadLengthError a b =>
      "RADIUS packet doesn't have enough length of bytes; it has to be at least " ++ dec a
      ++ " bytes, but actual length was " ++ dec b
  | InsufficientHeaderDefinedPacketLengthError a b =>
      "RADIUS packet header indicates the length as " ++ dec a
      ++ " bytes, but this is insufficient; this must have " ++ dec b ++ " bytes at least"
  | HeaderDefinedPacketLengthExceedsMaximumLimitError a b =>
      "RADIUS packet header indicates the length as " ++ dec a
      ++ " bytes, but this exceeds the maximum length " ++ dec b ++ " bytes"
  | DecodingError m => "failed to decode the packet: " ++ m
  | EncodingError m => "failed to encode the packet: " ++ m
  | UnknownCodeError m => "Unknown RADIUS packet type code: " ++ m
  | HashComputationFailed m => "computation of hash failed: " ++ m
  end.

(** avp.rs:16-58 [#[error(...)]] *)
Definition avp_error_display (e : avp_error) : string :=
  match e with
  | UserPasswordPlainTextMaximumLengthExceededError n =>
      "the maximum length of the plain text for user-password is 128, but the given value has "
      ++ dec n ++ " bytes"
  | PasswordSecretMissingError => "secret for password mustn't be empty, but the given value is empty"
  | InvalidRequestAuthenticatorLength =>
      "request authenticator for password has to have 16-bytes payload, but the given value doesn't"
  | InvalidAttributeLengthError s n =>
      "invalid attribute length: expected=" ++ s ++ ", actual=" ++ dec n ++ " bytes"
  | TagMissingError => "tag value is missing"
  | AvpDecodingError m => "decoding error: " ++ m
  | InvalidSaltMSBError b =>
      "invalid salt. the MSB has to be 1, but given value isn't: " ++ dec (b2n b)
  | InvalidTagForStringValueError => "invalid tag for string value. this must not be zero"
  | InvalidTagForIntegerValueError =>
      "invalid tag for integer value. this must be less than or equal 0x1f"
  | AvpHashComputationFailed m => "computation of hash failed: " ++ m
  end.
