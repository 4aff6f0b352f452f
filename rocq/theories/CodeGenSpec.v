(** * Independent specification of dictionary files (C51, C52)

    Only the data types of CodeGen.v and [text_of_string] (to write literals) are used. *)
From Coq Require Import String List NArith Bool Sorting.Sorted.
From Verif Require Import Prelude Accessors CodeGen.
Import ListNotations.
Local Open Scope N_scope.
Local Open Scope list_scope.

Definition lit (s : string) : text := text_of_string s.

(** ** Lines: ended by LF, an immediately preceding CR belongs to the line ending *)
Inductive lines_are : text -> list text -> Prop :=
| la_nil : lines_are [] []
| la_last l : l <> [] -> ~ In 10 l -> lines_are l [l]
| la_lf l rest ls :
    ~ In 10 l -> (forall l', l <> l' ++ [13]) -> lines_are rest ls -> lines_are (l ++ 10 :: rest) (l :: ls)
| la_crlf l rest ls :
    ~ In 10 l -> lines_are rest ls -> lines_are (l ++ 13 :: 10 :: rest) (l :: ls).

(** ** Fields: separated by white space (the Unicode property White_Space) *)
Definition white (c : N) : Prop :=
  In c [9; 10; 11; 12; 13; 32; 0x85; 0xA0; 0x1680; 0x2000; 0x2001; 0x2002; 0x2003; 0x2004; 0x2005;
        0x2006; 0x2007; 0x2008; 0x2009; 0x200A; 0x2028; 0x2029; 0x202F; 0x205F; 0x3000].
Definition word (w : text) : Prop := Forall (fun c => ~ white c) w.
Definition blank (w : text) : Prop := w <> [] /\ Forall white w.
Inductive fields : text -> list text -> Prop :=
| fs_one w : word w -> fields w [w]
| fs_more w sep rest ws :
    word w -> blank sep -> (forall c rest', rest = c :: rest' -> ~ white c) ->
    fields rest ws -> fields (w ++ sep ++ rest) (w :: ws).

(** pieces between commas *)
Inductive pieces : text -> list text -> Prop :=
| ps_one w : ~ In 44 w -> pieces w [w]
| ps_more w rest ws : ~ In 44 w -> pieces rest ws -> pieces (w ++ 44 :: rest) (w :: ws).

(** ** Numbers: decimal digits, optionally after a plus sign *)
Definition digit (c : N) : Prop := 48 <= c <= 57.
Inductive decimal : text -> N -> Prop :=
| dc_one d : digit d -> decimal [d] (d - 48)
| dc_more ds n d : decimal ds n -> digit d -> decimal (ds ++ [d]) (10 * n + (d - 48)).
Definition number (s : text) (n : N) : Prop := decimal s n \/ exists ds, s = 43 :: ds /\ decimal ds n.

(** the number before a trailing comment: the first # that does not end the field starts one *)
Inductive without_comment : text -> text -> Prop :=
| wc_none s : (forall before after, s = before ++ 35 :: after -> after = []) -> without_comment s s
| wc_some before after :
    ~ In 35 before -> after <> [] -> without_comment (before ++ 35 :: after) before.

(** ** What a line means *)
Inductive meaning :=
| Nothing
| AnAttribute (a : radius_attribute)
| AValue (attr : text) (v : radius_value)
| AnError (e : dict_error)
| Aborts.                      (* the generator panics *)

Definition plain_types : list (text * value_type) := [
  (lit "string", VTString); (lit "octets", VTOctets); (lit "ipaddr", VTIpAddr);
  (lit "ipv4prefix", VTIpv4Prefix); (lit "ipv6addr", VTIpv6Addr); (lit "ipv6prefix", VTIpv6Prefix);
  (lit "ifid", VTIfId); (lit "date", VTDate); (lit "integer", VTInteger); (lit "short", VTShort);
  (lit "vsa", VTVsa) ].

(** the options of an attribute: the fifth field *)
Definition option_list (items opts : list text) : Prop :=
  match items with
  | _ :: _ :: _ :: _ :: o :: _ => pieces o opts
  | _ => opts = []
  end.
(** the last of encrypt=1, encrypt=2 *)
Inductive encryption : list text -> option encryption_type -> Prop :=
| en_none opts : ~ In (lit "encrypt=1") opts -> ~ In (lit "encrypt=2") opts -> encryption opts None
| en_user a b :
    ~ In (lit "encrypt=1") b -> ~ In (lit "encrypt=2") b ->
    encryption (a ++ lit "encrypt=1" :: b) (Some EncUserPassword)
| en_tunnel a b :
    ~ In (lit "encrypt=1") b -> ~ In (lit "encrypt=2") b ->
    encryption (a ++ lit "encrypt=2" :: b) (Some EncTunnelPassword).

Section Meaning.
  (** the characters outside ASCII that are decimal digits *)
  Variable other_digit : N -> bool.
  Definition any_digit (c : N) : Prop := digit c \/ (128 <= c /\ other_digit c = true).
  (** octets[n] *)
  Definition bracketed (s ds : text) : Prop :=
    s = lit "octets[" ++ ds ++ lit "]" /\ ds <> [] /\ Forall any_digit ds.

  Inductive type_meaning (opts : list text) : text -> res dict_error (value_type * option N) -> Prop :=
  | tm_user s : encryption opts (Some EncUserPassword) -> s = lit "string" ->
      type_meaning opts s (Ok (VTUserPassword, None))
  | tm_tunnel s : encryption opts (Some EncTunnelPassword) -> s = lit "string" ->
      type_meaning opts s (Ok (VTTunnelPassword, None))
  | tm_string s : encryption opts None -> s = lit "string" ->
      type_meaning opts s (Ok (VTString, None))
  | tm_plain s t : In (s, t) plain_types -> s <> lit "string" -> type_meaning opts s (Ok (t, None))
  | tm_octets s ds n : bracketed s ds -> decimal ds n -> n < 2 ^ 64 ->
      type_meaning opts s (Ok (VTOctets, Some n))
  | tm_octets_bad s ds : bracketed s ds -> (forall n, decimal ds n -> 2 ^ 64 <= n) ->
      type_meaning opts s Panic
  | tm_unknown s : (forall t, ~ In (s, t) plain_types) -> (forall ds, ~ bracketed s ds) ->
      type_meaning opts s (Err (InvalidType s)).

  Definition flag (opts : list text) (name : text) (b : bool) : Prop := b = true <-> In name opts.

  Definition skipped (line : text) : Prop := line = [] \/ exists rest, line = 35 :: rest.

  Inductive means (line : text) : meaning -> Prop :=
  | me_skipped : skipped line -> means line Nothing
  | me_few items :
      ~ skipped line -> fields line items -> (List.length items < 4)%nat -> means line (AnError LackedItems)
  | me_kind kind i1 i2 i3 more :
      ~ skipped line -> fields line (kind :: i1 :: i2 :: i3 :: more) ->
      kind <> lit "ATTRIBUTE" -> kind <> lit "VALUE" ->
      means line (AnError (UnexpectedKind kind))
  | me_type name code type more opts e :
      fields line (lit "ATTRIBUTE" :: name :: code :: type :: more) ->
      option_list (lit "ATTRIBUTE" :: name :: code :: type :: more) opts ->
      type_meaning opts type (Err e) ->
      means line (AnError e)
  | me_type_aborts name code type more opts :
      fields line (lit "ATTRIBUTE" :: name :: code :: type :: more) ->
      option_list (lit "ATTRIBUTE" :: name :: code :: type :: more) opts ->
      type_meaning opts type Panic ->
      means line Aborts
  | me_attribute name code type more opts vt fixed typ concat tag :
      fields line (lit "ATTRIBUTE" :: name :: code :: type :: more) ->
      option_list (lit "ATTRIBUTE" :: name :: code :: type :: more) opts ->
      type_meaning opts type (Ok (vt, fixed)) ->
      number code typ -> typ <= 255 ->
      flag opts (lit "concat") concat -> flag opts (lit "has_tag") tag ->
      means line (AnAttribute (RadiusAttribute name typ vt fixed concat tag))
  | me_code_aborts name code type more opts vt fixed :
      fields line (lit "ATTRIBUTE" :: name :: code :: type :: more) ->
      option_list (lit "ATTRIBUTE" :: name :: code :: type :: more) opts ->
      type_meaning opts type (Ok (vt, fixed)) ->
      (forall n, number code n -> 255 < n) ->
      means line Aborts
  | me_value attr name val more s n :
      fields line (lit "VALUE" :: attr :: name :: val :: more) ->
      without_comment val s -> number s n -> n <= 65535 ->
      means line (AValue attr (RadiusValue name n))
  | me_value_aborts attr name val more s :
      fields line (lit "VALUE" :: attr :: name :: val :: more) ->
      without_comment val s -> (forall n, number s n -> 65535 < n) ->
      means line Aborts.
End Meaning.

(** ** What a file means *)
Definition fine (m : meaning) : Prop :=
  match m with AnError _ | Aborts => False | _ => True end.
Definition attributes_of (ms : list meaning) : list radius_attribute :=
  flat_map (fun m => match m with AnAttribute a => [a] | _ => [] end) ms.
(** the values declared for an attribute, in file order *)
Inductive values_of (attr : text) : list meaning -> list radius_value -> Prop :=
| vo_nil : values_of attr [] []
| vo_take v ms vs : values_of attr ms vs -> values_of attr (AValue attr v :: ms) (v :: vs)
| vo_skip m ms vs : (forall v, m <> AValue attr v) -> values_of attr ms vs -> values_of attr (m :: ms) vs.

(** texts in dictionary order *)
Inductive text_lt : text -> text -> Prop :=
| tl_nil c t : text_lt [] (c :: t)
| tl_less c t c' t' : c < c' -> text_lt (c :: t) (c' :: t')
| tl_same c t t' : text_lt t t' -> text_lt (c :: t) (c :: t').

(** one entry for each attribute with values, in the order of the names *)
Definition table_of (ms : list meaning) (table : list (text * list radius_value)) : Prop :=
  Sorted.StronglySorted text_lt (map fst table) /\
  forall attr vs, In (attr, vs) table <-> values_of attr ms vs /\ vs <> [].

(** ** What is generated for an attribute *)
Inductive template : value_type -> option N -> bool -> bool -> bool -> kind -> Prop :=
(* type, fixed length, concat, tagged, has values *)
| te_string f c v : template VTString f c false v KString
| te_tagged_string f c v : template VTString f c true v KTaggedString
| te_user f c v : template VTUserPassword f c false v KUserPassword
| te_tunnel f c v : template VTTunnelPassword f c true v KTunnelPassword
| te_fixed n c v : template VTOctets (Some n) c false v (KFixedOctets n)
| te_concat v : template VTOctets None true false v KConcatOctets
| te_octets v : template VTOctets None false false v KOctets
| te_ipaddr f c v : template VTIpAddr f c false v KIpaddr
| te_ipv4prefix f c v : template VTIpv4Prefix f c false v KIpv4Prefix
| te_ipv6addr f c v : template VTIpv6Addr f c false v KIpv6addr
| te_ipv6prefix f c v : template VTIpv6Prefix f c false v KIpv6Prefix
| te_ifid f c v : template VTIfId f c false v (KFixedOctets 8)
| te_date f c v : template VTDate f c false v KDate
| te_integer f c : template VTInteger f c false false KInteger
| te_tagged_integer f c : template VTInteger f c true false KTaggedInteger
| te_value f c : template VTInteger f c false true KValueInteger
| te_tagged_value f c : template VTInteger f c true true KTaggedValueInteger
| te_short f c v : template VTShort f c false v KShort
| te_vsa f c tag v : template VTVsa f c tag v KVsa.

(** the combinations for which nothing can be generated *)
Definition unsupported (a : radius_attribute) : Prop :=
  match ra_value_type a with
  | VTString | VTInteger | VTVsa => False
  | VTTunnelPassword => ra_has_tag a = false
  | _ => ra_has_tag a = true
  end.

(** what is generated for an attribute, given the table of values of its dictionary *)
Definition attribute_for (table : list (text * list radius_value)) (a : radius_attribute) (g : gen_attribute) : Prop :=
  ga_name g = ra_name a /\ ga_typ g = ra_typ a /\
  exists has_values, (has_values = true <-> In (ra_name a) (map fst table)) /\
    template (ra_value_type a) (ra_fixed_octets_length a) (ra_concat_octets a) (ra_has_tag a) has_values (ga_kind g).

(** the module that defines the type of an attribute's values: the latest of the earlier
    dictionaries that define the attribute, or the module itself *)
Definition qualifier (before : list (string * list radius_attribute)) (attr : text) (q : option string) : Prop :=
  match q with
  | None => forall rfc attrs, In (rfc, attrs) before -> ~ In attr (map ra_name attrs)
  | Some rfc =>
      exists earlier attrs later, before = earlier ++ (rfc, attrs) :: later /\ In attr (map ra_name attrs) /\
        forall rfc' attrs', In (rfc', attrs') later -> ~ In attr (map ra_name attrs')
  end.
Definition module_for (before : list (string * list radius_attribute)) (attrs : list radius_attribute)
  (table : list (text * list radius_value)) (m : gen_module) : Prop :=
  Forall2 (attribute_for table) attrs (gm_attributes m) /\
  exists qs, Forall2 (fun e q => qualifier before (fst e) q) table qs /\
    gm_types m = flat_map (fun '(e, q) => match q with None => [fst e] | Some _ => [] end) (combine table qs) /\
    gm_constants m =
      flat_map (fun '(e, q) => map (fun v => GenConstant (fst e) (rv_name v) q (rv_value v)) (snd e)) (combine table qs).

(** ** Comparing names with identifiers: only letters and digits count, in lower case *)
Definition squash (t : text) : text :=
  flat_map (fun c => if (65 <=? c) && (c <=? 90) then [c + 32]
                     else if ((97 <=? c) && (c <=? 122)) || ((48 <=? c) && (c <=? 57)) then [c] else []) t.
