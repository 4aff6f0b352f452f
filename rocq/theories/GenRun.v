(** * code-generator/src/main.rs as a program, and the values of the generator's model as values of the program *)
From Coq Require Import String List NArith ZArith Bool Strings.Byte.
From Verif Require Import Prelude AvpSpec Accessors CodeGen Inflect GenText Rust RustEval SourceGen.
Import ListNotations.
Local Open Scope string_scope.
Local Open Scope N_scope.
Local Open Scope list_scope.

Definition generator_program_of (file : list string) : program :=
  match parse_inlined file with Some is => program_of "" is | None => Program [] [] [] [] [] end.
(** computed once *)
Definition generator_program : program := Eval vm_compute in generator_program_of source_generator.
Lemma generator_program_ok : generator_program = generator_program_of source_generator.
Proof. vm_compute. reflexivity. Qed.

(** ** The values of the model *)
Definition v_string (t : text) : value := VStr (utf8_text t).
Definition value_type_name (t : value_type) : string :=
  match t with
  | VTString => "String" | VTUserPassword => "UserPassword" | VTTunnelPassword => "TunnelPassword"
  | VTOctets => "Octets" | VTIpAddr => "IpAddr" | VTIpv4Prefix => "Ipv4Prefix" | VTIpv6Addr => "Ipv6Addr"
  | VTIpv6Prefix => "Ipv6Prefix" | VTIfId => "IfId" | VTDate => "Date" | VTInteger => "Integer" | VTShort => "Short"
  | VTVsa => "VSA"
  end.
Definition v_value_type (t : value_type) : value := VCtor "RadiusAttributeValueType" (value_type_name t) [].
Definition v_size (o : option N) : value := match o with Some n => vsome (VInt Usize n) | None => vnone end.
Definition v_attribute (a : radius_attribute) : value :=
  VStruct "RadiusAttribute" [
    ("name", v_string (ra_name a)); ("typ", VInt U8 (ra_typ a)); ("value_type", v_value_type (ra_value_type a));
    ("fixed_octets_length", v_size (ra_fixed_octets_length a)); ("concat_octets", VBool (ra_concat_octets a));
    ("has_tag", VBool (ra_has_tag a)) ].
Definition v_rvalue (v : radius_value) : value :=
  VStruct "RadiusValue" [("name", v_string (rv_name v)); ("value", VInt U16 (rv_value v))].
Definition v_entry (e : text * list radius_value) : value :=
  VTuple [v_string (fst e); VList (map v_rvalue (snd e))].
Definition v_value_map (m : value_map) : value := VList (map v_entry m).
Definition v_names (m : value_map) : value := VList (map (fun e => v_string (fst e)) m).
Definition v_module (r : string) : value := v_string (lit_text r).

(** a file, known by its path, and what has been written to it *)
Definition v_file (path : bytes) : value := VCtor "File" "File" [VStr path].
Definition write_event (path b : bytes) : event := Event "File::write_all" [VStr path; VBytes b] (Some (vok VUnit)).
Fixpoint wrote (path : bytes) (chunks : list bytes) (w : world) : world :=
  match chunks with
  | [] => w
  | b :: r => wrote path r (World (w_random w) (write_event path b :: w_trace w))
  end.

(** the libraries the generator uses: Inflector as modelled in Inflect.v, regex as far as CodeGen.v models it *)
Record libraries (U : unicode) (other_digit : N -> bool) (ans : list event -> string -> list value -> option value) : Prop := {
  lib_snake : forall s, Forall scalar s ->
    ans [] "to_snake_case" [v_string s] = Some (v_string (to_snake_case U s));
  lib_screaming : forall s, Forall scalar s ->
    ans [] "to_screaming_snake_case" [v_string s] = Some (v_string (to_screaming_snake_case U s));
  lib_pascal : forall s, Forall scalar s ->
    ans [] "to_pascal_case" [v_string s] = Some (v_string (to_pascal_case U s));
  lib_filter : forall s, Forall scalar s ->
    ans [] "Regex::is_match" [VStr (bytes_of_string "^(?:#.*|)$"); v_string s] = Some (VBool (line_is_filtered s));
  lib_split : forall s, Forall scalar s ->
    ans [] "Regex::split" [VStr (bytes_of_string "\s+"); v_string s] = Some (VList (map v_string (split_items s)));
  lib_comment : forall s, Forall scalar s -> existsb is_ws s = false ->
    ans [] "Regex::replace" [VStr (bytes_of_string "\s*?#.+?$"); v_string s; VStr []]
    = Some (v_string (cut_trailing_comment s));
  lib_octets : forall s, Forall scalar s ->
    ans [] "Regex::captures" [VStr (bytes_of_string "^octets\[(\d+)]$"); v_string s]
    = Some (match fixed_octets_capture other_digit s with
            | Some ds => vsome (VList [v_string s; v_string ds])
            | None => vnone
            end) }.
Definition writable (path : bytes) (ans : list event -> string -> list value -> option value) : Prop :=
  forall tr b, ans tr "File::write_all" [VStr path; VBytes b] = Some (vok VUnit).
