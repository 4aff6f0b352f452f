(** * code-generator/src/main.rs: the text that is generated

    CodeGen.v says which template is used for an attribute; here are the templates and the text of
    the whole module.  A text is a list of Unicode scalar values; writing it to the file (UTF-8) is in
    GenWhole.v.  Not modelled are the two commands that follow in the Makefile's target [gen]:
    [cargo fix] and [cargo fmt]. *)
From Coq Require Import String List NArith Bool.
From Verif Require Import Prelude Accessors CodeGen Inflect.
Import ListNotations.
Local Open Scope N_scope.
Local Open Scope list_scope.

(** A format string: literal text and the names in braces *)
Inductive piece := T (s : string) | Method | TypeId | TypeValue | FixedLength | ValueType.
(** What is put in their place *)
Record filling := Filling {
  f_method : text; f_type_id : text; f_type_value : N; f_fixed_length : N; f_value_type : text }.
Definition lit_text (s : string) : text := text_of_string s.
Definition dec_text (n : N) : text := lit_text (dec n).
(** [format!] *)
Definition fill (f : filling) (p : piece) : text :=
  match p with
  | T s => lit_text s
  | Method => f_method f
  | TypeId => f_type_id f
  | TypeValue => dec_text (f_type_value f)
  | FixedLength => dec_text (f_fixed_length f)
  | ValueType => f_value_type f
  end.
Definition format (f : filling) (t : list piece) : text := flat_map (fill f) t.

(** ** The templates, extracted by tools/gen_templates.py *)
Local Open Scope string_scope.
(** main.rs:378-397 *)
Definition common_template : list piece := [
T "
pub const "; TypeId; T ": AVPType = "; TypeValue; T ";
/// Delete all of `"; Method; T "` values from a packet.
pub fn delete_"; Method; T "(packet: &mut Packet) {
    packet.delete("; TypeId; T ");
}
"].
(** main.rs:399-426 *)
Definition string_template : list piece := [
T "/// Add `"; Method; T "` string value to a packet.
pub fn add_"; Method; T "(packet: &mut Packet, value: &str) {
    packet.add(AVP::from_string("; TypeId; T ", value));
}
/// Lookup a `"; Method; T "` string value from a packet.
///
/// It returns the first looked up value. If there is no associated value with `"; Method; T "`, it returns `None`.
pub fn lookup_"; Method; T "(packet: &Packet) -> Option<Result<String, AVPError>> {
    packet.lookup("; TypeId; T ").map(|v| v.encode_string())
}
/// Lookup all of the `"; Method; T "` string value from a packet.
pub fn lookup_all_"; Method; T "(packet: &Packet) -> Result<Vec<String>, AVPError> {
    let mut vec = Vec::new();
    for avp in packet.lookup_all("; TypeId; T ") {
        vec.push(avp.encode_string()?)
    }
    Ok(vec)
}
"].
(** main.rs:428-455 *)
Definition tagged_string_template : list piece := [
T "/// Add `"; Method; T "` tagged string value to a packet.
pub fn add_"; Method; T "(packet: &mut Packet, tag: Option<&Tag>, value: &str) {
    packet.add(AVP::from_tagged_string("; TypeId; T ", tag, value));
}
/// Lookup a `"; Method; T "` tagged string value from a packet.
///
/// It returns the first looked up value. If there is no associated value with `"; Method; T "`, it returns `None`.
pub fn lookup_"; Method; T "(packet: &Packet) -> Option<Result<(String, Option<Tag>), AVPError>> {
    packet.lookup("; TypeId; T ").map(|v| v.encode_tagged_string())
}
/// Lookup all of the `"; Method; T "` tagged string value from a packet.
pub fn lookup_all_"; Method; T "(packet: &Packet) -> Result<Vec<(String, Option<Tag>)>, AVPError> {
    let mut vec = Vec::new();
    for avp in packet.lookup_all("; TypeId; T ") {
        vec.push(avp.encode_tagged_string()?)
    }
    Ok(vec)
}
"].
(** main.rs:457-484 *)
Definition user_password_template : list piece := [
T "/// Add `"; Method; T "` user-password value to a packet.
pub fn add_"; Method; T "(packet: &mut Packet, value: &[u8]) -> Result<(), AVPError> {
    packet.add(AVP::from_user_password("; TypeId; T ", value, packet.get_secret(), packet.get_authenticator())?);
    Ok(())
}
/// Lookup a `"; Method; T "` user-password value from a packet.
///
/// It returns the first looked up value. If there is no associated value with `"; Method; T "`, it returns `None`.
pub fn lookup_"; Method; T "(packet: &Packet) -> Option<Result<Vec<u8>, AVPError>> {
    packet.lookup("; TypeId; T ").map(|v| v.encode_user_password(packet.get_secret(), packet.get_authenticator()))
}
/// Lookup all of the `"; Method; T "` user-password value from a packet.
pub fn lookup_all_"; Method; T "(packet: &Packet) -> Result<Vec<Vec<u8>>, AVPError> {
    let mut vec = Vec::new();
    for avp in packet.lookup_all("; TypeId; T ") {
        vec.push(avp.encode_user_password(packet.get_secret(), packet.get_authenticator())?)
    }
    Ok(vec)
}
"].
(** main.rs:486-513 *)
Definition tunnel_password_template : list piece := [
T "/// Add `"; Method; T "` tunnel-password value to a packet.
pub fn add_"; Method; T "(packet: &mut Packet, tag: Option<&Tag>, value: &[u8]) -> Result<(), AVPError> {
    packet.add(AVP::from_tunnel_password("; TypeId; T ", tag, value, packet.get_secret(), packet.get_authenticator())?);
    Ok(())
}
/// Lookup a `"; Method; T "` tunnel-password value from a packet.
///
/// It returns the first looked up value. If there is no associated value with `"; Method; T "`, it returns `None`.
pub fn lookup_"; Method; T "(packet: &Packet) -> Option<Result<(Vec<u8>, Tag), AVPError>> {
    packet.lookup("; TypeId; T ").map(|v| v.encode_tunnel_password(packet.get_secret(), packet.get_authenticator()))
}
/// Lookup all of the `"; Method; T "` tunnel-password value from a packet.
pub fn lookup_all_"; Method; T "(packet: &Packet) -> Result<Vec<(Vec<u8>, Tag)>, AVPError> {
    let mut vec = Vec::new();
    for avp in packet.lookup_all("; TypeId; T ") {
        vec.push(avp.encode_tunnel_password(packet.get_secret(), packet.get_authenticator())?)
    }
    Ok(vec)
}
"].
(** main.rs:515-541 *)
Definition octets_template : list piece := [
T "/// Add `"; Method; T "` octets value to a packet.
pub fn add_"; Method; T "(packet: &mut Packet, value: &[u8]) {
    packet.add(AVP::from_bytes("; TypeId; T ", value));
}
/// Lookup a `"; Method; T "` octets value from a packet.
///
/// It returns the first looked up value. If there is no associated value with `"; Method; T "`, it returns `None`.
pub fn lookup_"; Method; T "(packet: &Packet) -> Option<Vec<u8>> {
    packet.lookup("; TypeId; T ").map(|v| v.encode_bytes())
}
/// Lookup all of the `"; Method; T "` octets value from a packet.
pub fn lookup_all_"; Method; T "(packet: &Packet) -> Vec<Vec<u8>> {
    let mut vec = Vec::new();
    for avp in packet.lookup_all("; TypeId; T ") {
        vec.push(avp.encode_bytes())
    }
    vec
}
"].
(** main.rs:543-570 *)
Definition concat_octets_template : list piece := [
T "pub fn add_"; Method; T "(packet: &mut Packet, value: &[u8]) {
    packet.extend(
        value
            .chunks(253)
            .map(|chunk| AVP::from_bytes("; TypeId; T ", chunk))
            .collect(),
    );
}
pub fn lookup_"; Method; T "(packet: &Packet) -> Option<Vec<u8>> {
    let avps = packet.lookup_all("; TypeId; T ");
    match avps.is_empty() {
        true => None,
        false => Some(avps.into_iter().fold(Vec::new(), |mut acc, v| {
            acc.extend(v.encode_bytes());
            acc
        })),
    }
}
"].
(** main.rs:572-604 *)
Definition fixed_length_octets_template : list piece := [
T "/// Add `"; Method; T "` fixed-length octets value to a packet.
pub fn add_"; Method; T "(packet: &mut Packet, value: &[u8]) -> Result<(), AVPError> {
    if value.len() != "; FixedLength; T " {
        return Err(AVPError::InvalidAttributeLengthError("""; FixedLength; T " bytes"".to_owned(), value.len()));
    }
    packet.add(AVP::from_bytes("; TypeId; T ", value));
    Ok(())
}
/// Lookup a `"; Method; T "` fixed-length octets value from a packet.
///
/// It returns the first looked up value. If there is no associated value with `"; Method; T "`, it returns `None`.
pub fn lookup_"; Method; T "(packet: &Packet) -> Option<Vec<u8>> {
    packet.lookup("; TypeId; T ").map(|v| v.encode_bytes())
}
/// Lookup all of the `"; Method; T "` fixed-length octets value from a packet.
pub fn lookup_all_"; Method; T "(packet: &Packet) -> Vec<Vec<u8>> {
    let mut vec = Vec::new();
    for avp in packet.lookup_all("; TypeId; T ") {
        vec.push(avp.encode_bytes())
    }
    vec
}
"].
(** main.rs:606-633 *)
Definition ipaddr_template : list piece := [
T "/// Add `"; Method; T "` ipaddr value to a packet.
pub fn add_"; Method; T "(packet: &mut Packet, value: &Ipv4Addr) {
    packet.add(AVP::from_ipv4("; TypeId; T ", value));
}
/// Lookup a `"; Method; T "` ipaddr value from a packet.
///
/// It returns the first looked up value. If there is no associated value with `"; Method; T "`, it returns `None`.
pub fn lookup_"; Method; T "(packet: &Packet) -> Option<Result<Ipv4Addr, AVPError>> {
    packet.lookup("; TypeId; T ").map(|v| v.encode_ipv4())
}
/// Lookup all of the `"; Method; T "` ipaddr value from a packet.
pub fn lookup_all_"; Method; T "(packet: &Packet) -> Result<Vec<Ipv4Addr>, AVPError> {
    let mut vec = Vec::new();
    for avp in packet.lookup_all("; TypeId; T ") {
        vec.push(avp.encode_ipv4()?)
    }
    Ok(vec)
}
"].
(** main.rs:635-663 *)
Definition ipv4_prefix_template : list piece := [
T "/// Add `"; Method; T "` ipv4 prefix value to a packet.
pub fn add_"; Method; T "(packet: &mut Packet, value: &[u8]) -> Result<(), AVPError> {
    packet.add(AVP::from_ipv4_prefix("; TypeId; T ", value)?);
    Ok(())
}
/// Lookup a `"; Method; T "` ipv4 prefix value from a packet.
///
/// It returns the first looked up value. If there is no associated value with `"; Method; T "`, it returns `None`.
pub fn lookup_"; Method; T "(packet: &Packet) -> Option<Result<Vec<u8>, AVPError>> {
    packet.lookup("; TypeId; T ").map(|v| v.encode_ipv4_prefix())
}
/// Lookup all of the `"; Method; T "` ipv4 prefix value from a packet.
pub fn lookup_all_"; Method; T "(packet: &Packet) -> Result<Vec<Vec<u8>>, AVPError> {
    let mut vec = Vec::new();
    for avp in packet.lookup_all("; TypeId; T ") {
        vec.push(avp.encode_ipv4_prefix()?)
    }
    Ok(vec)
}
"].
(** main.rs:665-692 *)
Definition ipv6addr_template : list piece := [
T "/// Add `"; Method; T "` ipv6addr value to a packet.
pub fn add_"; Method; T "(packet: &mut Packet, value: &Ipv6Addr) {
    packet.add(AVP::from_ipv6("; TypeId; T ", value));
}
/// Lookup a `"; Method; T "` ipv6addr value from a packet.
///
/// It returns the first looked up value. If there is no associated value with `"; Method; T "`, it returns `None`.
pub fn lookup_"; Method; T "(packet: &Packet) -> Option<Result<Ipv6Addr, AVPError>> {
    packet.lookup("; TypeId; T ").map(|v| v.encode_ipv6())
}
/// Lookup all of the `"; Method; T "` ipv6addr value from a packet.
pub fn lookup_all_"; Method; T "(packet: &Packet) -> Result<Vec<Ipv6Addr>, AVPError> {
    let mut vec = Vec::new();
    for avp in packet.lookup_all("; TypeId; T ") {
        vec.push(avp.encode_ipv6()?)
    }
    Ok(vec)
}
"].
(** main.rs:694-722 *)
Definition ipv6_prefix_template : list piece := [
T "/// Add `"; Method; T "` ipv6 prefix value to a packet.
pub fn add_"; Method; T "(packet: &mut Packet, value: &[u8]) -> Result<(), AVPError> {
    packet.add(AVP::from_ipv6_prefix("; TypeId; T ", value)?);
    Ok(())
}
/// Lookup a `"; Method; T "` ipv6 prefix value from a packet.
///
/// It returns the first looked up value. If there is no associated value with `"; Method; T "`, it returns `None`.
pub fn lookup_"; Method; T "(packet: &Packet) -> Option<Result<Vec<u8>, AVPError>> {
    packet.lookup("; TypeId; T ").map(|v| v.encode_ipv6_prefix())
}
/// Lookup all of the `"; Method; T "` ipv6 prefix value from a packet.
pub fn lookup_all_"; Method; T "(packet: &Packet) -> Result<Vec<Vec<u8>>, AVPError> {
    let mut vec = Vec::new();
    for avp in packet.lookup_all("; TypeId; T ") {
        vec.push(avp.encode_ipv6_prefix()?)
    }
    Ok(vec)
}
"].
(** main.rs:724-751 *)
Definition date_template : list piece := [
T "/// Add `"; Method; T "` date value to a packet.
pub fn add_"; Method; T "(packet: &mut Packet, value: &DateTime<Utc>) {
    packet.add(AVP::from_date("; TypeId; T ", value));
}
/// Lookup a `"; Method; T "` date value from a packet.
///
/// It returns the first looked up value. If there is no associated value with `"; Method; T "`, it returns `None`.
pub fn lookup_"; Method; T "(packet: &Packet) -> Option<Result<DateTime<Utc>, AVPError>> {
    packet.lookup("; TypeId; T ").map(|v| v.encode_date())
}
/// Lookup all of the `"; Method; T "` date value from a packet.
pub fn lookup_all_"; Method; T "(packet: &Packet) -> Result<Vec<DateTime<Utc>>, AVPError> {
    let mut vec = Vec::new();
    for avp in packet.lookup_all("; TypeId; T ") {
        vec.push(avp.encode_date()?)
    }
    Ok(vec)
}
"].
(** main.rs:753-780 *)
Definition integer_template : list piece := [
T "/// Add `"; Method; T "` integer value to a packet.
pub fn add_"; Method; T "(packet: &mut Packet, value: u32) {
    packet.add(AVP::from_u32("; TypeId; T ", value));
}
/// Lookup a `"; Method; T "` integer value from a packet.
///
/// It returns the first looked up value. If there is no associated value with `"; Method; T "`, it returns `None`.
pub fn lookup_"; Method; T "(packet: &Packet) -> Option<Result<u32, AVPError>> {
    packet.lookup("; TypeId; T ").map(|v| v.encode_u32())
}
/// Lookup all of the `"; Method; T "` integer value from a packet.
pub fn lookup_all_"; Method; T "(packet: &Packet) -> Result<Vec<u32>, AVPError> {
    let mut vec = Vec::new();
    for avp in packet.lookup_all("; TypeId; T ") {
        vec.push(avp.encode_u32()?)
    }
    Ok(vec)
}
"].
(** main.rs:782-809 *)
Definition tagged_integer_template : list piece := [
T "/// Add `"; Method; T "` tagged integer value to a packet.
pub fn add_"; Method; T "(packet: &mut Packet, tag: Option<&Tag>, value: u32) {
    packet.add(AVP::from_tagged_u32("; TypeId; T ", tag, value));
}
/// Lookup a `"; Method; T "` tagged integer value from a packet.
///
/// It returns the first looked up value. If there is no associated value with `"; Method; T "`, it returns `None`.
pub fn lookup_"; Method; T "(packet: &Packet) -> Option<Result<(u32, Tag), AVPError>> {
    packet.lookup("; TypeId; T ").map(|v| v.encode_tagged_u32())
}
/// Lookup all of the `"; Method; T "` tagged integer value from a packet.
pub fn lookup_all_"; Method; T "(packet: &Packet) -> Result<Vec<(u32, Tag)>, AVPError> {
    let mut vec = Vec::new();
    for avp in packet.lookup_all("; TypeId; T ") {
        vec.push(avp.encode_tagged_u32()?)
    }
    Ok(vec)
}
"].
(** main.rs:811-839 *)
Definition value_defined_integer_template : list piece := [
T "/// Add `"; Method; T "` value-defined integer value to a packet.
pub fn add_"; Method; T "(packet: &mut Packet, value: "; ValueType; T ") {
    packet.add(AVP::from_u32("; TypeId; T ", value));
}
/// Lookup a `"; Method; T "` value-defined integer value from a packet.
///
/// It returns the first looked up value. If there is no associated value with `"; Method; T "`, it returns `None`.
pub fn lookup_"; Method; T "(packet: &Packet) -> Option<Result<"; ValueType; T ", AVPError>> {
    packet.lookup("; TypeId; T ").map(|v| Ok(v.encode_u32()? as "; ValueType; T "))
}
/// Lookup all of the `"; Method; T "` value-defined integer value from a packet.
pub fn lookup_all_"; Method; T "(packet: &Packet) -> Result<Vec<"; ValueType; T ">, AVPError> {
    let mut vec = Vec::new();
    for avp in packet.lookup_all("; TypeId; T ") {
        vec.push(avp.encode_u32()? as "; ValueType; T ")
    }
    Ok(vec)
}
"].
(** main.rs:841-873 *)
Definition tagged_value_defined_integer_template : list piece := [
T "/// Add `"; Method; T "` tagged value-defined integer value to a packet.
pub fn add_"; Method; T "(packet: &mut Packet, tag: Option<&Tag>, value: "; ValueType; T ") {
    packet.add(AVP::from_tagged_u32("; TypeId; T ", tag, value));
}
/// Lookup a `"; Method; T "` tagged value-defined integer value from a packet.
///
/// It returns the first looked up value. If there is no associated value with `"; Method; T "`, it returns `None`.
pub fn lookup_"; Method; T "(packet: &Packet) -> Option<Result<("; ValueType; T ", Tag), AVPError>> {
    packet.lookup("; TypeId; T ").map(|v| {
        let (v, t) = v.encode_tagged_u32()?;
        Ok((v as "; ValueType; T ", t))
    })
}
/// Lookup all of the `"; Method; T "` tagged value-defined integer value from a packet.
pub fn lookup_all_"; Method; T "(packet: &Packet) -> Result<Vec<("; ValueType; T ", Tag)>, AVPError> {
    let mut vec = Vec::new();
    for avp in packet.lookup_all("; TypeId; T ") {
        let (v, t) = avp.encode_tagged_u32()?;
        vec.push((v as "; ValueType; T ", t))
    }
    Ok(vec)
}
"].
(** main.rs:875-902 *)
Definition short_template : list piece := [
T "/// Add `"; Method; T "` short integer value to a packet.
pub fn add_"; Method; T "(packet: &mut Packet, value: u16) {
    packet.add(AVP::from_u16("; TypeId; T ", value));
}
/// Lookup a `"; Method; T "` short integer value from a packet.
///
/// It returns the first looked up value. If there is no associated value with `"; Method; T "`, it returns `None`.
pub fn lookup_"; Method; T "(packet: &Packet) -> Option<Result<u16, AVPError>> {
    packet.lookup("; TypeId; T ").map(|v| v.encode_u16())
}
/// Lookup all of the `"; Method; T "` short integer value from a packet.
pub fn lookup_all_"; Method; T "(packet: &Packet) -> Result<Vec<u16>, AVPError> {
    let mut vec = Vec::new();
    for avp in packet.lookup_all("; TypeId; T ") {
        vec.push(avp.encode_u16()?)
    }
    Ok(vec)
}
"].
Local Close Scope string_scope.

(** main.rs:266-376 (and 904-906: nothing for a VSA) *)
Definition template_of (k : kind) : list piece :=
  match k with
  | KString => string_template
  | KTaggedString => tagged_string_template
  | KUserPassword => user_password_template
  | KTunnelPassword => tunnel_password_template
  | KOctets => octets_template
  | KConcatOctets => concat_octets_template
  | KFixedOctets _ => fixed_length_octets_template
  | KIpaddr => ipaddr_template
  | KIpv4Prefix => ipv4_prefix_template
  | KIpv6addr => ipv6addr_template
  | KIpv6Prefix => ipv6_prefix_template
  | KDate => date_template
  | KInteger => integer_template
  | KTaggedInteger => tagged_integer_template
  | KValueInteger => value_defined_integer_template
  | KTaggedValueInteger => tagged_value_defined_integer_template
  | KShort => short_template
  | KVsa => []
  end.
(** main.rs:271-274, 300-310, 345, 360, 380-394 *)
Definition filling_for (U : unicode) (name : text) (typ : N) (k : kind) : filling :=
  Filling (to_snake_case U name) (to_screaming_snake_case U name ++ lit_text "_TYPE") typ
    (match k with KFixedOctets n => n | _ => 0 end) (to_pascal_case U name).
(** main.rs:266-397 *)
Definition attribute_text (U : unicode) (name : text) (typ : N) (k : kind) : text :=
  format (filling_for U name typ k) (common_template ++ template_of k).
(** main.rs:256-264 *)
Fixpoint attributes_text (U : unicode) (attrs : list radius_attribute) (values : value_map)
  : res unit text :=
  match attrs with
  | [] => Ok []
  | a :: attrs' =>
      do k <- attribute_kind a (existsb (fun e => text_eqb (ra_name a) (fst e)) values);
      do t <- attributes_text U attrs' values;
      Ok (attribute_text U (ra_name a) (ra_typ a) k ++ t)
  end.

(** main.rs:226-252: one constant; [type_name] is in Pascal case *)
Definition constant_text (U : unicode) (type_name : text) (rfc : option string) (v : radius_value) : text :=
  lit_text "pub const " ++ to_screaming_snake_case U type_name ++ lit_text "_"
  ++ to_screaming_snake_case U (rv_name v) ++ lit_text ": "
  ++ (match rfc with Some r => lit_text r ++ lit_text "::" | None => [] end)
  ++ type_name ++ lit_text " = " ++ dec_text (rv_value v) ++ lit_text ";" ++ [10].
(** main.rs:212-254 *)
Definition values_text (U : unicode) (attr : text) (values : list radius_value) (rfc : option string) : text :=
  let type_name := to_pascal_case U attr in
  (match rfc with
   | None => [10] ++ lit_text "pub type " ++ type_name ++ lit_text " = u32;" ++ [10]
   | Some _ => []
   end)
  ++ flat_map (constant_text U type_name rfc) values ++ [10].
(** main.rs:202-210 *)
Definition all_values_text (U : unicode) (values : value_map) (names : list (text * string)) : text :=
  flat_map (fun e => values_text U (fst e) (snd e) (rfc_of names (fst e))) values.

(** [[String]::join("\n")] *)
Fixpoint join_lines (ls : list text) : text :=
  match ls with
  | [] => []
  | [l] => l
  | l :: ls' => l ++ 10 :: join_lines ls'
  end.
(** main.rs:162-200 *)
Definition header_text (earlier : list string) (rfc : string) (dict_lines : list text) : text :=
  lit_text "// Code generated by machine generator; DO NOT EDIT.

//! Utility for " ++ lit_text rfc ++ lit_text " packet.
//!
//! This module handles the packet according to the following definition:
//! ```text
//! " ++ join_lines (map (fun l => lit_text "//! " ++ l) dict_lines) ++ lit_text "
//! ```

use std::net::{Ipv4Addr, Ipv6Addr};

use chrono::{DateTime, Utc};

use crate::core::avp::{AVP, AVPType, AVPError};
use crate::core::packet::Packet;
use crate::core::tag::Tag;

" ++ flat_map (fun r => lit_text "use crate::core::" ++ lit_text r ++ lit_text ";" ++ [10]) earlier.

(** main.rs:133-159: the modules and their text; [earlier] are the modules before, oldest first *)
Fixpoint generate_texts (U : unicode) (other_digit : N -> bool) (earlier : list string)
  (names : list (text * string)) (dicts : list (string * text)) : res unit (list (string * text)) :=
  match dicts with
  | [] => Ok []
  | (rfc, t) :: dicts' =>
      match parse_dict_file other_digit t with
      | Ok (attrs, values) =>
          do code <- attributes_text U attrs values;
          let m := header_text earlier rfc (text_lines t) ++ code ++ all_values_text U values names in
          do ms <- generate_texts U other_digit (earlier ++ [rfc])
                     (rev (map (fun a => (ra_name a, rfc)) attrs) ++ names) dicts';
          Ok ((rfc, m) :: ms)
      | _ => Panic
      end
  end.
Definition generated_texts (U : unicode) (other_digit : N -> bool) (dicts : list (string * text))
  : res unit (list (string * text)) := generate_texts U other_digit [] [] dicts.
