(** * The hand-written files of radius/src as a program, and the values of the model as values of the program *)
From Coq Require Import String List NArith ZArith Bool Strings.Byte.
From Verif Require Import Prelude Md5 Utf8 Tag Code Avp Attributes Vsa Packet Rust RustEval SourceCore SourceNet.
Import ListNotations.
Local Open Scope string_scope.
Local Open Scope N_scope.
Local Open Scope list_scope.

(** Cargo.toml: the crate is built with one of two hash libraries *)
Inductive feature := Md5Crate | Openssl.
Definition feature_name (f : feature) : string := match f with Md5Crate => "md5" | Openssl => "openssl" end.

Fixpoint parse_all (files : list (list string)) : option (list aitem) :=
  match files with
  | [] => Some []
  | x :: xs => match parse x, parse_all xs with Some a, Some b => Some (a ++ b) | _, _ => None end
  end.
Definition crate_files : list (list string) :=
  [source_tag; source_code; source_attributes; source_vsa; source_avp; source_packet; source_request;
   source_client; source_server].
Definition empty_program : program := Program [] [] [] [] [].
(** the program a list of files is, for a feature *)
Definition program_from (files : list (list string)) (f : feature) : program :=
  match parse_all files with Some is => program_of (feature_name f) is | None => empty_program end.

(** computed once; [crate_program_ok]: it is the program of the files *)
Definition crate_md5 : program := Eval vm_compute in program_from crate_files Md5Crate.
Definition crate_openssl : program := Eval vm_compute in program_from crate_files Openssl.
Definition crate_program (f : feature) : program := match f with Md5Crate => crate_md5 | Openssl => crate_openssl end.
Lemma crate_program_ok f : crate_program f = program_from crate_files f.
Proof. destruct f; vm_compute; reflexivity. Qed.

(** ** The values of the model *)
Definition v_bytes (b : bytes) : value := VBytes b.
Definition v_str (b : bytes) : value := VStr b.
Definition v_text (s : string) : value := VStr (bytes_of_string s).
Definition v_u32 (n : N) : value := VInt U32 n.
Definition v_u16 (n : N) : value := VInt U16 n.
Definition v_usize (n : N) : value := VInt Usize n.
Definition v_option {A} (f : A -> value) (o : option A) : value := match o with Some a => vsome (f a) | None => vnone end.
Definition v_pair {A B} (f : A -> value) (g : B -> value) (p : A * B) : value := VTuple [f (fst p); g (snd p)].
Definition v_tag (t : tag) : value := VStruct "Tag" [("value", vu8 (tag_value t))].
Definition v_ipv4 (i : ipv4) : value := VIpv4 (ipv4_octets i).
Definition v_ipv6 (i : ipv6) : value := VIpv6 (ipv6_octets i).
Definition v_date (d : datetime) : value := VDate (dt_timestamp d).
Definition v_code (c : code) : value := VCtor "Code" (code_debug c) [].
Definition v_avp (a : avp) : value := VStruct "AVP" [("typ", vu8 (avp_typ a)); ("value", VBytes (avp_value a))].
Definition avp_values (l : list avp) : list value := map v_avp l.
Definition v_avps (l : list avp) : value := VList (avp_values l).
Definition v_attributes (l : attributes) : value := VCtor "Attributes" "Attributes" [v_avps l].
Definition v_packet (p : packet) : value :=
  VStruct "Packet" [
    ("code", v_code (Packet.p_code p)); ("identifier", vu8 (Packet.p_identifier p)); ("authenticator", VBytes (Packet.p_authenticator p));
    ("secret", VBytes (Packet.p_secret p)); ("attributes", v_attributes (Packet.p_attributes p)) ].
Definition v_string_vsa (v : string_vsa) : value :=
  VStruct "StringVSA" [
    ("vendor_id", VBytes (sv_vendor_id v)); ("vendor_type", vu8 (sv_vendor_type v));
    ("length", vu8 (sv_length v)); ("value", VBytes (sv_value v)) ].
Definition v_tagged_string_vsa (v : tagged_string_vsa) : value :=
  VStruct "TaggedStringVSA" [
    ("vendor_id", VBytes (tv_vendor_id v)); ("vendor_type", vu8 (tv_vendor_type v));
    ("length", vu8 (tv_length v)); ("tag", vu8 (tv_tag v)); ("value", VBytes (tv_value v)) ].
Definition v_avp_error (e : avp_error) : value :=
  match e with
  | UserPasswordPlainTextMaximumLengthExceededError n =>
      VCtor "AVPError" "UserPasswordPlainTextMaximumLengthExceededError" [v_usize n]
  | PasswordSecretMissingError => VCtor "AVPError" "PasswordSecretMissingError" []
  | InvalidRequestAuthenticatorLength => VCtor "AVPError" "InvalidRequestAuthenticatorLength" []
  | InvalidAttributeLengthError expected actual =>
      VCtor "AVPError" "InvalidAttributeLengthError" [v_text expected; v_usize actual]
  | TagMissingError => VCtor "AVPError" "TagMissingError" []
  | AvpDecodingError msg => VCtor "AVPError" "DecodingError" [v_text msg]
  | InvalidSaltMSBError b => VCtor "AVPError" "InvalidSaltMSBError" [vu8 b]
  | InvalidTagForStringValueError => VCtor "AVPError" "InvalidTagForStringValueError" []
  | InvalidTagForIntegerValueError => VCtor "AVPError" "InvalidTagForIntegerValueError" []
  | AvpHashComputationFailed msg => VCtor "AVPError" "HashComputationFailed" [v_text msg]
  end.
Definition v_packet_error (e : packet_error) : value :=
  match e with
  | InsufficientPacketPayloadLengthError a b =>
      VCtor "PacketError" "InsufficientPacketPayloadLengthError" [v_usize a; v_usize b]
  | InsufficientHeaderDefinedPacketLengthError a b =>
      VCtor "PacketError" "InsufficientHeaderDefinedPacketLengthError" [v_usize a; v_usize b]
  | HeaderDefinedPacketLengthExceedsMaximumLimitError a b =>
      VCtor "PacketError" "HeaderDefinedPacketLengthExceedsMaximumLimitError" [v_usize a; v_usize b]
  | DecodingError m => VCtor "PacketError" "DecodingError" [v_text m]
  | EncodingError m => VCtor "PacketError" "EncodingError" [v_text m]
  | UnknownCodeError m => VCtor "PacketError" "UnknownCodeError" [v_text m]
  | HashComputationFailed m => VCtor "PacketError" "HashComputationFailed" [v_text m]
  end.
(** a [Result] of the model as the outcome of a call: a panic is a panic *)
Definition v_result {E A} (fe : E -> value) (fa : A -> value) (r : res E A) (ps : list value) (w : world) : rout :=
  match r with
  | Ok a => RVal (vok (fa a)) ps w
  | Err e => RVal (verr (fe e)) ps w
  | Panic => RPanic
  | OutOfFuel => RNoFuel
  end.
