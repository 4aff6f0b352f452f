(** * code-generator/src/main.rs: the dictionary parser and the choice of code

    A dictionary is a text: a list of Unicode scalar values (a file that is not UTF-8 makes
    [line_result.unwrap()] panic and is not modelled).  What is generated is represented by the
    list of attributes with the template chosen for each, the type aliases and the constants; the
    templates themselves are the [template_*] functions of Accessors.v.  The text that is written and
    the identifiers are in GenText.v and Inflect.v; the command line and the files are in the text of
    main.rs, which GenWhole.v runs.  Not modelled: I/O errors. *)
From Coq Require Import String List NArith Bool Ascii.
From Verif Require Import Prelude Accessors.
Import ListNotations.
Local Open Scope N_scope.
Local Open Scope list_scope.

Definition text := list N.
Definition text_of_string (s : string) : text := map N_of_ascii (list_ascii_of_string s).
Fixpoint text_eqb (a b : text) : bool :=
  match a, b with
  | [], [] => true
  | x :: a', y :: b' => (x =? y) && text_eqb a' b'
  | _, _ => false
  end.

(** main.rs:22-26 *)
Inductive encryption_type := EncUserPassword | EncTunnelPassword.
(** main.rs:45-59 *)
Inductive value_type :=
| VTString | VTUserPassword | VTTunnelPassword | VTOctets | VTIpAddr | VTIpv4Prefix | VTIpv6Addr
| VTIpv6Prefix | VTIfId | VTDate | VTInteger | VTShort | VTVsa.
(** main.rs:28-36 *)
Record radius_attribute := RadiusAttribute {
  ra_name : text; ra_typ : N; ra_value_type : value_type; ra_fixed_octets_length : option N;
  ra_concat_octets : bool; ra_has_tag : bool }.
(** main.rs:38-42 *)
Record radius_value := RadiusValue { rv_name : text; rv_value : N }.

(** main.rs:61-80 *)
Definition value_type_from_str (s : text) : option value_type :=
  let is n := text_eqb s (text_of_string n) in
  if is "string"%string then Some VTString
  else if is "octets"%string then Some VTOctets
  else if is "ipaddr"%string then Some VTIpAddr
  else if is "ipv4prefix"%string then Some VTIpv4Prefix
  else if is "ipv6addr"%string then Some VTIpv6Addr
  else if is "ipv6prefix"%string then Some VTIpv6Prefix
  else if is "ifid"%string then Some VTIfId
  else if is "date"%string then Some VTDate
  else if is "integer"%string then Some VTInteger
  else if is "short"%string then Some VTShort
  else if is "vsa"%string then Some VTVsa
  else None.

(** [BufRead::lines] (main.rs:88-94): a line ends with LF or CR LF; what follows the last line
    ending is a line unless it is empty *)
Definition strip_cr (rev_line : text) : text :=
  match rev_line with 13 :: r => rev r | _ => rev rev_line end.
Fixpoint lines_from (rev_line : text) (t : text) : list text :=
  match t with
  | [] => match rev_line with [] => [] | _ => [rev rev_line] end
  | c :: t' => if c =? 10 then strip_cr rev_line :: lines_from [] t' else lines_from (c :: rev_line) t'
  end.
Definition text_lines (t : text) : list text := lines_from [] t.

(** main.rs:915 [^(?:#.*|)$] *)
Definition line_is_filtered (line : text) : bool :=
  match line with
  | [] => true
  | c :: rest => (c =? 35) && forallb (fun x => negb (x =? 10)) rest
  end.

(** [\s] of the crate regex: the Unicode property White_Space *)
Definition is_ws (c : N) : bool :=
  ((9 <=? c) && (c <=? 13)) || (c =? 32) || (c =? 0x85) || (c =? 0xA0) || (c =? 0x1680)
  || ((0x2000 <=? c) && (c <=? 0x200A)) || (c =? 0x2028) || (c =? 0x2029) || (c =? 0x202F)
  || (c =? 0x205F) || (c =? 0x3000).
(** main.rs:916, 933: splitting at [\s+]; [sep]: inside a separator *)
Fixpoint split_ws (rev_item : text) (sep : bool) (t : text) : list text :=
  match t with
  | [] => [rev rev_item]
  | c :: t' =>
      if is_ws c then
        if sep then split_ws [] true t' else rev rev_item :: split_ws [] true t'
      else split_ws (c :: rev_item) false t'
  end.
Definition split_items (line : text) : list text := split_ws [] false line.

(** [str::split(',')] *)
Fixpoint split_comma_from (rev_item : text) (t : text) : list text :=
  match t with
  | [] => [rev rev_item]
  | c :: t' => if c =? 44 then rev rev_item :: split_comma_from [] t' else split_comma_from (c :: rev_item) t'
  end.
Definition split_comma (t : text) : list text := split_comma_from [] t.

(** [str::parse] to an unsigned integer with the given maximum *)
Definition is_digit (c : N) : bool := (48 <=? c) && (c <=? 57).
Definition digits_value (ds : text) : N := fold_left (fun acc d => 10 * acc + (d - 48)) ds 0.
Definition parse_digits (max : N) (ds : text) : option N :=
  match ds with
  | [] => None
  | _ => if forallb is_digit ds then
           let v := digits_value ds in if v <=? max then Some v else None
         else None
  end.
Definition parse_uint (max : N) (s : text) : option N :=
  match s with 43 :: ds => parse_digits max ds | _ => parse_digits max s end.

(** main.rs:917, 1002 [\s*?#.+?$], replaced by nothing: the items contain no white space, so the
    match starts at the first # that is followed by something *)
Fixpoint cut_trailing_comment (s : text) : text :=
  match s with
  | [] => []
  | c :: rest => if (c =? 35) && negb (is_nil rest) then [] else c :: cut_trailing_comment rest
  end.

(** main.rs:918, 973 [^octets\[(\d+)]$]: the digits.  [\d] also stands for the decimal digits of
    other scripts; [other_digit] says which characters outside ASCII those are. *)
Fixpoint strip_prefix (p s : text) : option text :=
  match p, s with
  | [], _ => Some s
  | x :: p', y :: s' => if x =? y then strip_prefix p' s' else None
  | _ :: _, [] => None
  end.
Definition regex_digit (other_digit : N -> bool) (c : N) : bool :=
  is_digit c || ((128 <=? c) && other_digit c).
Definition fixed_octets_capture (other_digit : N -> bool) (s : text) : option text :=
  match strip_prefix (text_of_string "octets[") s with
  | Some r =>
      match rev r with
      | 93 :: rev_ds =>
          if negb (is_nil rev_ds) && forallb (regex_digit other_digit) rev_ds then Some (rev rev_ds) else None
      | _ => None
      end
  | None => None
  end.

(** main.rs:941-968: the options *)
Record options := Options { op_encryption : option encryption_type; op_has_tag : bool; op_concat : bool }.
Definition read_option (o : options) (type_opt : text) : options :=
  if text_eqb type_opt (text_of_string "encrypt=1") then
    Options (Some EncUserPassword) (op_has_tag o) (op_concat o)
  else if text_eqb type_opt (text_of_string "encrypt=2") then
    Options (Some EncTunnelPassword) (op_has_tag o) (op_concat o)
  else if text_eqb type_opt (text_of_string "has_tag") then
    Options (op_encryption o) true (op_concat o)
  else if text_eqb type_opt (text_of_string "concat") then
    Options (op_encryption o) (op_has_tag o) true
  else o.
Definition read_options (items : list text) : options :=
  match items with
  | _ :: _ :: _ :: _ :: opts :: _ => fold_left read_option (split_comma opts) (Options None false false)
  | _ => Options None false false
  end.

(** The result of parsing: the attributes, and the values by attribute in the order of a [BTreeMap] *)
Definition value_map := list (text * list radius_value).
Fixpoint text_ltb (a b : text) : bool :=
  match a, b with
  | [], _ :: _ => true
  | x :: a', y :: b' => (x <? y) || ((x =? y) && text_ltb a' b')
  | _, [] => false
  end.
(** main.rs:1008-1016; [String]s are ordered by their UTF-8 octets, which is the order of the
    scalar values *)
Fixpoint value_map_add (m : value_map) (attr : text) (v : radius_value) : value_map :=
  match m with
  | [] => [(attr, [v])]
  | (a, vs) :: m' =>
      if text_eqb attr a then (a, vs ++ [v]) :: m'
      else if text_ltb attr a then (attr, [v]) :: m
      else (a, vs) :: value_map_add m' attr v
  end.
Definition value_map_get (m : value_map) (attr : text) : option (list radius_value) :=
  option_map snd (find (fun e => text_eqb attr (fst e)) m).

Definition parsed := (list radius_attribute * value_map)%type.

(** errors: main.rs:936, 985, 1018 *)
Inductive dict_error := LackedItems | InvalidType (typ : text) | UnexpectedKind (kind : text).

(** main.rs:970-988 *)
Definition read_type (other_digit : N -> bool) (o : options) (item : text)
  : res dict_error (value_type * option N) :=
  match value_type_from_str item with
  | Some VTString =>
      match op_encryption o with
      | Some EncUserPassword => Ok (VTUserPassword, None)
      | Some EncTunnelPassword => Ok (VTTunnelPassword, None)
      | None => Ok (VTString, None)
      end
  | Some t => Ok (t, None)
  | None =>
      match fixed_octets_capture other_digit item with
      | Some ds =>
          match parse_uint (2 ^ 64 - 1) ds with
          | Some n => Ok (VTOctets, Some n)
          | None => Panic
          end
      | None => Err (InvalidType item)
      end
  end.

(** main.rs:926-1020: one line; the size of [usize] is 64 bits *)
Definition parse_line (other_digit : N -> bool) (st : parsed) (line : text) : res dict_error parsed :=
  let '(attrs, values) := st in
  if line_is_filtered line then Ok st
  else
    let items := split_items line in
    match items with
    | kind :: i1 :: i2 :: i3 :: _ =>
        if text_eqb kind (text_of_string "ATTRIBUTE") then
          let o := read_options items in
          do tf <- read_type other_digit o i3;
          match parse_uint 255 i2 with
          | Some typ =>
              Ok (attrs ++ [RadiusAttribute i1 typ (fst tf) (snd tf) (op_concat o) (op_has_tag o)], values)
          | None => Panic
          end
        else if text_eqb kind (text_of_string "VALUE") then
          match parse_uint 65535 (cut_trailing_comment i3) with
          | Some v => Ok (attrs, value_map_add values i1 (RadiusValue i2 v))
          | None => Panic
          end
        else Err (UnexpectedKind kind)
    | _ => Err LackedItems
    end.
Fixpoint parse_lines (other_digit : N -> bool) (st : parsed) (lines : list text) : res dict_error parsed :=
  match lines with
  | [] => Ok st
  | l :: lines' => do st' <- parse_line other_digit st l; parse_lines other_digit st' lines'
  end.
(** main.rs:910-1031 *)
Definition parse_dict_file (other_digit : N -> bool) (t : text) : res dict_error parsed :=
  parse_lines other_digit ([], []) (text_lines t).

(** main.rs:266-376: which template is used; [Panic] is [unimplemented!].  [KVsa]: only the
    constant and [delete_x] are generated. *)
Definition attribute_kind (a : radius_attribute) (has_values : bool) : res unit kind :=
  let untagged k := if ra_has_tag a then Panic else Ok k in
  match ra_value_type a with
  | VTString => Ok (if ra_has_tag a then KTaggedString else KString)
  | VTUserPassword => untagged KUserPassword
  | VTTunnelPassword => if ra_has_tag a then Ok KTunnelPassword else Panic
  | VTOctets =>
      untagged match ra_fixed_octets_length a with
               | Some n => KFixedOctets n
               | None => if ra_concat_octets a then KConcatOctets else KOctets
               end
  | VTIpAddr => untagged KIpaddr
  | VTIpv4Prefix => untagged KIpv4Prefix
  | VTIpv6Addr => untagged KIpv6addr
  | VTIpv6Prefix => untagged KIpv6Prefix
  | VTIfId => untagged (KFixedOctets 8)
  | VTDate => untagged KDate
  | VTInteger =>
      Ok (if has_values then if ra_has_tag a then KTaggedValueInteger else KValueInteger
          else if ra_has_tag a then KTaggedInteger else KInteger)
  | VTShort => untagged KShort
  | VTVsa => Ok KVsa
  end.

(** What is generated for one attribute, one constant and one dictionary *)
Record gen_attribute := GenAttribute { ga_name : text; ga_typ : N; ga_kind : kind }.
Record gen_constant := GenConstant {
  gc_attr : text; gc_name : text; gc_module : option string; gc_value : N }.
Record gen_module := GenModule {
  gm_name : string; gm_attributes : list gen_attribute; gm_types : list text;
  gm_constants : list gen_constant }.

(** main.rs:256-264 *)
Fixpoint generate_attributes (attrs : list radius_attribute) (values : value_map)
  : res unit (list gen_attribute) :=
  match attrs with
  | [] => Ok []
  | a :: attrs' =>
      do k <- attribute_kind a (existsb (fun e => text_eqb (ra_name a) (fst e)) values);
      do gs <- generate_attributes attrs' values;
      Ok (GenAttribute (ra_name a) (ra_typ a) k :: gs)
  end.
(** [HashMap::get]; the newest entry comes first *)
Definition rfc_of (names : list (text * string)) (attr : text) : option string :=
  option_map snd (find (fun e => text_eqb attr (fst e)) names).
(** main.rs:202-254 *)
Definition generate_types (values : value_map) (names : list (text * string)) : list text :=
  map fst (filter (fun e => match rfc_of names (fst e) with None => true | Some _ => false end) values).
Definition generate_constants (values : value_map) (names : list (text * string)) : list gen_constant :=
  flat_map (fun e => map (fun v => GenConstant (fst e) (rv_name v) (rfc_of names (fst e)) (rv_value v)) (snd e))
    values.

(** main.rs:133-159; the dictionaries come in the order of their paths *)
Fixpoint generate_all (other_digit : N -> bool) (names : list (text * string))
  (dicts : list (string * text)) : res unit (list gen_module) :=
  match dicts with
  | [] => Ok []
  | (rfc, t) :: dicts' =>
      match parse_dict_file other_digit t with
      | Ok (attrs, values) =>
          do gs <- generate_attributes attrs values;
          let m := GenModule rfc gs (generate_types values names) (generate_constants values names) in
          do ms <- generate_all other_digit
                     (rev (map (fun a => (ra_name a, rfc)) attrs) ++ names) dicts';
          Ok (m :: ms)
      | _ => Panic
      end
  end.
Definition generate (other_digit : N -> bool) (dicts : list (string * text)) : res unit (list gen_module) :=
  generate_all other_digit [] dicts.
