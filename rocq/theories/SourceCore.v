(** * radius/src/core: the hand-written files, character by character

    Written by tools/gen_sources_core.py.  Each line is one string; the text is the lines, each followed
    by a line feed. *)
From Coq Require Import String List.
Import ListNotations.
Local Open Scope string_scope.

(** radius/src/core/tag.rs:1-55 *)
Definition source_tag : list string := [
"pub(crate) const UNUSED_TAG_VALUE: u8 = 0x00;";
"";
"/// Tag represents a tag of a RADIUS value.";
"/// see also: http://www.ietf.org/rfc/rfc2868.html";
"#[derive(Debug, PartialEq)]";
"pub struct Tag {";
"    pub(crate) value: u8,";
"}";
"";
"impl Tag {";
"    pub fn new(value: u8) -> Self {";
"        Tag { value }";
"    }";
"";
"    pub fn new_unused() -> Self {";
"        Tag {";
"            value: UNUSED_TAG_VALUE,";
"        }";
"    }";
"";
"    pub fn get_value(&self) -> u8 {";
"        self.value";
"    }";
"";
"    pub fn is_zero(&self) -> bool {";
"        self.value == UNUSED_TAG_VALUE";
"    }";
"";
"    pub fn is_valid_value(&self) -> bool {";
"        1 <= self.value && self.value <= 0x1f";
"    }";
"}";
"";
"#[cfg(test)]";
"mod tests {";
"    use crate::core::tag::Tag;";
"";
"    #[test]";
"    fn test_is_zero() {";
"        let tag = Tag { value: 0 };";
"        assert_eq!(tag.is_zero(), true);";
"        let tag = Tag { value: 1 };";
"        assert_eq!(tag.is_zero(), false);";
"    }";
"";
"    #[test]";
"    fn test_is_valid_value() {";
"        let tag = Tag { value: 1 };";
"        assert_eq!(tag.is_valid_value(), true);";
"        let tag = Tag { value: 0 };";
"        assert_eq!(tag.is_valid_value(), false);";
"        let tag = Tag { value: 0x20 };";
"        assert_eq!(tag.is_valid_value(), false);";
"    }";
"}"].

(** radius/src/core/code.rs:1-54 *)
Definition source_code : list string := [
"use std::convert::TryFrom;";
"";
"use num_enum::TryFromPrimitive;";
"";
"#[derive(Debug, Copy, Clone, PartialEq, TryFromPrimitive)]";
"#[repr(u8)]";
"pub enum Code {";
"    AccessRequest = 1,";
"    AccessAccept = 2,";
"    AccessReject = 3,";
"    AccountingRequest = 4,";
"    AccountingResponse = 5,";
"    AccessChallenge = 11,";
"    StatusServer = 12,";
"    StatusClient = 13,";
"    DisconnectRequest = 40,";
"    DisconnectACK = 41,";
"    DisconnectNAK = 42,";
"    CoARequest = 43,";
"    CoAACK = 44,";
"    CoANAK = 45,";
"    Reserved = 255,";
"    Invalid = 0,";
"}";
"";
"impl Code {";
"    pub fn string(&self) -> &'static str {";
"        match self {";
"            Code::AccessRequest => ""Access-Request"",";
"            Code::AccessAccept => ""Access-Accept"",";
"            Code::AccessReject => ""Access-Reject"",";
"            Code::AccountingRequest => ""Accounting-Request"",";
"            Code::AccountingResponse => ""Accounting-Response"",";
"            Code::AccessChallenge => ""Access-Challenge"",";
"            Code::StatusServer => ""Status-Server"",";
"            Code::StatusClient => ""Status-Client"",";
"            Code::DisconnectRequest => ""Disconnect-Request"",";
"            Code::DisconnectACK => ""Disconnect-ACK"",";
"            Code::DisconnectNAK => ""Disconnect-NAK"",";
"            Code::CoARequest => ""CoA-Request"",";
"            Code::CoAACK => ""CoA-ACK"",";
"            Code::CoANAK => ""CoA-NAK"",";
"            Code::Reserved => ""Reserved"",";
"            Code::Invalid => ""Invalid"",";
"        }";
"    }";
"";
"    pub fn from(value: u8) -> Self {";
"        match Code::try_from(value) {";
"            Ok(code) => code,";
"            Err(_) => Code::Invalid,";
"        }";
"    }";
"}"].

(** radius/src/core/attributes.rs:1-71 *)
Definition source_attributes : list string := [
"use crate::core::avp::{AVPType, AVP};";
"";
"#[derive(Debug, Clone, PartialEq)]";
"pub(crate) struct Attributes(pub(crate) Vec<AVP>);";
"";
"impl Attributes {";
"    pub(crate) fn decode(bs: &[u8]) -> Result<Attributes, String> {";
"        let mut i = 0;";
"        let mut attrs = Vec::new();";
"";
"        while bs.len() > i {";
"            if bs[i..].len() < 2 {";
"                return Err(""short buffer"".to_owned());";
"            }";
"";
"            let length = bs[i + 1] as usize;";
"            if length > bs[i..].len() || !(2..=255).contains(&length) {";
"                return Err(""invalid attribute length"".to_owned());";
"            }";
"";
"            attrs.push(AVP {";
"                typ: bs[i],";
"                value: if length > 2 {";
"                    bs[i + 2..i + length].to_vec()";
"                } else {";
"                    vec![]";
"                },";
"            });";
"";
"            i += length;";
"        }";
"";
"        Ok(Attributes(attrs))";
"    }";
"";
"    pub(crate) fn add(&mut self, avp: AVP) {";
"        self.0.push(avp)";
"    }";
"";
"    pub(crate) fn extend(&mut self, avps: Vec<AVP>) {";
"        self.0.extend(avps)";
"    }";
"";
"    pub(crate) fn del(&mut self, typ: AVPType) {";
"        self.0.retain(|avp| avp.typ != typ);";
"    }";
"";
"    pub(crate) fn lookup(&self, typ: AVPType) -> Option<&AVP> {";
"        self.0.iter().find(|avp| avp.typ == typ)";
"    }";
"";
"    pub(crate) fn lookup_all(&self, typ: AVPType) -> Vec<&AVP> {";
"        self.0.iter().filter(|&avp| avp.typ == typ).collect()";
"    }";
"";
"    pub(crate) fn encode(&self) -> Result<Vec<u8>, String> {";
"        let mut encoded: Vec<u8> = Vec::new();";
"";
"        for avp in &self.0 {";
"            let attr_len = avp.value.len();";
"            if attr_len > 253 {";
"                return Err(""attribute is too large"".to_owned());";
"            }";
"            encoded.push(avp.typ);";
"            encoded.push(2 + attr_len as u8);";
"            encoded.extend(&avp.value);";
"        }";
"";
"        Ok(encoded)";
"    }";
"}"].

(** radius/src/core/vsa.rs:1-206 *)
Definition source_vsa : list string := [
"/// VSA trait represents the general vendor-specific struct related methods.";
"pub trait VSA {";
"    /// len returns the length of sub-attribute of vendor-specific.";
"    ///";
"    /// Ref: RFC 4679 - https://datatracker.ietf.org/doc/html/rfc4679";
"    /// > Vendor-Length";
"    /// >";
"    /// >   The Vendor-Length field is one octet and indicates the length of";
"    /// >   the entire sub-attribute, including the Vendor-Type,";
"    /// >   Vendor-Length, and Value fields.";
"    fn len(&self) -> usize;";
"    /// is_empty returns whether the VSA is empty or not.";
"    fn is_empty(&self) -> bool;";
"    /// message returns the serialized vendor-specific message for AVP.";
"    fn message(&self) -> Vec<u8>;";
"}";
"";
"/// StringVSA represents the VSA according to the RFC 2865.";
"#[derive(Debug, Clone, PartialEq)]";
"pub struct StringVSA {";
"    vendor_id: Vec<u8>,";
"    vendor_type: u8,";
"    length: u8,";
"    value: Vec<u8>,";
"}";
"";
"impl StringVSA {";
"    const BYTE_SIZE_OFFSET: usize = 2;";
"";
"    pub fn new(vendor_id: i32, vendor_type: u8, value: &str) -> StringVSA {";
"        StringVSA {";
"            vendor_id: vendor_id.to_be_bytes().to_vec(),";
"            vendor_type,";
"            /*";
"             * Ref: RFC 4679 - https://datatracker.ietf.org/doc/html/rfc4679";
"             * > Vendor-Length";
"             * >";
"             * >   The Vendor-Length field is one octet and indicates the length of";
"             * >   the entire sub-attribute, including the Vendor-Type,";
"             * >   Vendor-Length, and Value fields.";
"             */";
"            length: (Self::BYTE_SIZE_OFFSET + value.len()) as u8,";
"            value: value.as_bytes().to_vec(),";
"        }";
"    }";
"}";
"";
"impl VSA for StringVSA {";
"    fn len(&self) -> usize {";
"        self.length as usize";
"    }";
"";
"    fn is_empty(&self) -> bool {";
"        self.length == 0";
"    }";
"";
"    /// message returns the serialized vendor-specific message for AVP.";
"    ///";
"    /// Format:";
"    ///    0                   1                   2                   3";
"    ///    0 1 2 3 4 5 6 7 8 9 0 1 2 3 4 5 6 7 8 9 0 1 2 3 4 5 6 7 8 9 0 1";
"    ///   +-+-+-+-+-+-+-+-+-+-+-+-+-+-+-+-+-+-+-+-+-+-+-+-+-+-+-+-+-+-+-+-+";
"    ///   |    Type       |  Length       |            Vendor-Id";
"    ///   +-+-+-+-+-+-+-+-+-+-+-+-+-+-+-+-+-+-+-+-+-+-+-+-+-+-+-+-+-+-+-+-+";
"    ///        Vendor-Id (cont)           | Vendor type   | Vendor length |";
"    ///   +-+-+-+-+-+-+-+-+-+-+-+-+-+-+-+-+-+-+-+-+-+-+-+-+-+-+-+-+-+-+-+-+";
"    ///   |    Attribute-Specific...";
"    ///   +-+-+-+-+-+-+-+-+-+-+-+-+-+-+-";
"    ///";
"    /// See also: RFC 2865 - https://datatracker.ietf.org/doc/html/rfc2865";
"    fn message(&self) -> Vec<u8> {";
"        let total_length: usize = Self::BYTE_SIZE_OFFSET + self.vendor_id.len() + self.value.len();";
"        let mut result = Vec::with_capacity(total_length);";
"";
"        result.extend(&self.vendor_id);";
"        result.extend(vec![self.vendor_type, self.length]);";
"        result.extend(&self.value);";
"";
"        result";
"    }";
"}";
"";
"/// TaggedStringVSA represents the VSA which has a tag value.";
"#[derive(Debug, Clone, PartialEq)]";
"pub struct TaggedStringVSA {";
"    vendor_id: Vec<u8>,";
"    vendor_type: u8,";
"    length: u8,";
"    tag: u8,";
"    value: Vec<u8>,";
"}";
"";
"impl TaggedStringVSA {";
"    const BYTE_SIZE_OFFSET: usize = 3;";
"";
"    pub fn new(vendor_id: i32, vendor_type: u8, tag: u8, value: &str) -> TaggedStringVSA {";
"        TaggedStringVSA {";
"            vendor_id: vendor_id.to_be_bytes().to_vec(),";
"            vendor_type,";
"            /*";
"             * Ref: RFC 4679 - https://datatracker.ietf.org/doc/html/rfc4679";
"             * > Vendor-Length";
"             * >";
"             * >   The Vendor-Length field is one octet and indicates the length of";
"             * >   the entire sub-attribute, including the Vendor-Type,";
"             * >   Vendor-Length, and Value fields.";
"             */";
"            length: (Self::BYTE_SIZE_OFFSET + value.len()) as u8,";
"            tag,";
"            value: value.as_bytes().to_vec(),";
"        }";
"    }";
"}";
"";
"impl VSA for TaggedStringVSA {";
"    fn len(&self) -> usize {";
"        self.length as usize";
"    }";
"";
"    fn is_empty(&self) -> bool {";
"        self.length == 0";
"    }";
"";
"    /// message returns the serialized vendor-specific message for AVP.";
"    ///";
"    /// Format:";
"    ///    0                   1                   2                   3";
"    ///    0 1 2 3 4 5 6 7 8 9 0 1 2 3 4 5 6 7 8 9 0 1 2 3 4 5 6 7 8 9 0 1";
"    ///   +-+-+-+-+-+-+-+-+-+-+-+-+-+-+-+-+-+-+-+-+-+-+-+-+-+-+-+-+-+-+-+-+";
"    ///   |    Type       |  Length       |            Vendor-Id";
"    ///   +-+-+-+-+-+-+-+-+-+-+-+-+-+-+-+-+-+-+-+-+-+-+-+-+-+-+-+-+-+-+-+-+";
"    ///        Vendor-Id (cont)           | Vendor type   | Vendor length |";
"    ///   +-+-+-+-+-+-+-+-+-+-+-+-+-+-+-+-+-+-+-+-+-+-+-+-+-+-+-+-+-+-+-+-+";
"    ///   |    Tag        |  Attribute-Specific...";
"    ///   +-+-+-+-+-+-+-+-+-+-+-+-+-+-+-+-+-+-+-+-+-+-";
"    ///";
"    /// See also: CISCO RADIUS Attributes Configuration Guide - https://www.cisco.com/c/en/us/td/docs/ios-xml/ios/sec_usr_radatt/configuration/xe-16/sec-usr-radatt-xe-16-book.pdf";
"    fn message(&self) -> Vec<u8> {";
"        let total_length: usize = Self::BYTE_SIZE_OFFSET + self.vendor_id.len() + self.value.len();";
"        let mut result = Vec::with_capacity(total_length);";
"";
"        result.extend(&self.vendor_id);";
"        result.extend(vec![self.vendor_type, self.length, self.tag]);";
"        result.extend(&self.value);";
"";
"        result";
"    }";
"}";
"";
"#[cfg(test)]";
"mod string_vsa_tests {";
"    use crate::core::vsa::{StringVSA, VSA};";
"";
"    #[test]";
"    fn it_should_get_len_successfully() {";
"        let vendor_id = 4874;";
"        let vsa_type = 65;";
"        let value = ""bar(1000,5441)"";";
"        let vsa = StringVSA::new(vendor_id, vsa_type, value);";
"";
"        assert_eq!(vsa.len(), 16);";
"    }";
"";
"    #[test]";
"    fn it_should_get_message_successfully() {";
"        let vendor_id = 4874;";
"        let vsa_type = 65;";
"        let value = ""bar(1000,5441)"";";
"        let vsa = StringVSA::new(vendor_id, vsa_type, value);";
"";
"        assert_eq!(";
"            vsa.message(),";
"            [0, 0, 19, 10, 65, 16, 98, 97, 114, 40, 49, 48, 48, 48, 44, 53, 52, 52, 49, 41]";
"        )";
"    }";
"}";
"";
"#[cfg(test)]";
"mod tagged_string_vsa_tests {";
"    use crate::core::vsa::{TaggedStringVSA, VSA};";
"";
"    #[test]";
"    fn it_should_get_len_successfully() {";
"        let vendor_id = 4874;";
"        let vsa_type = 65;";
"        let tag = 5;";
"        let value = ""bar(1000,5441)"";";
"        let vsa = TaggedStringVSA::new(vendor_id, vsa_type, tag, value);";
"";
"        assert_eq!(vsa.len(), 17);";
"    }";
"";
"    #[test]";
"    fn it_should_get_message_successfully() {";
"        let vendor_id = 4874;";
"        let vsa_type = 65;";
"        let tag = 5;";
"        let value = ""bar(1000,5441)"";";
"        let vsa = TaggedStringVSA::new(vendor_id, vsa_type, tag, value);";
"";
"        assert_eq!(";
"            vsa.message(),";
"            [0, 0, 19, 10, 65, 17, 5, 98, 97, 114, 40, 49, 48, 48, 48, 44, 53, 52, 52, 49, 41]";
"        )";
"    }";
"}"].

(** radius/src/core/avp.rs:1-1228 *)
Definition source_avp : list string := [
"use rand::Rng;";
"use std::convert::TryInto;";
"use std::net::{Ipv4Addr, Ipv6Addr};";
"";
"use chrono::{DateTime, TimeZone, Utc};";
"use thiserror::Error;";
"";
"use crate::core::tag::{Tag, UNUSED_TAG_VALUE};";
"";
"#[cfg(feature = ""md5"")]";
"use md5::compute;";
"";
"#[cfg(feature = ""openssl"")]";
"use openssl::hash::{hash, MessageDigest};";
"";
"#[derive(Error, PartialEq, Debug)]";
"pub enum AVPError {";
"    /// This error is raised on the length of given plain text for user-password exceeds the maximum limit.";
"    #[error(""the maximum length of the plain text for user-password is 128, but the given value has {0} bytes"")]";
"    UserPasswordPlainTextMaximumLengthExceededError(usize),";
"";
"    /// This error is raised when the given secret value for a password is empty.";
"    #[error(""secret for password mustn't be empty, but the given value is empty"")]";
"    PasswordSecretMissingError(),";
"";
"    /// This error is raised when the given request-authenticator for the password doesn't have 16 bytes length exactly.";
"    #[error(""request authenticator for password has to have 16-bytes payload, but the given value doesn't"")]";
"    InvalidRequestAuthenticatorLength(),";
"";
"    /// This error is raised when attribute length is conflicted with the expected.";
"    #[error(""invalid attribute length: expected={0}, actual={1} bytes"")]";
"    InvalidAttributeLengthError(String, usize),";
"";
"    /// This error is raised when the tagged-value doesn't have a tag byte.";
"    #[error(""tag value is missing"")]";
"    TagMissingError(),";
"";
"    /// This error represents AVP decoding error.";
"    #[error(""decoding error: {0}"")]";
"    DecodingError(String),";
"";
"    /// This error is raised when the MSB of salt is invalid.";
"    #[error(""invalid salt. the MSB has to be 1, but given value isn't: {0}"")]";
"    InvalidSaltMSBError(u8),";
"";
"    /// This error is raised when a tag is invalid for the tagged-staring value.";
"    #[error(""invalid tag for string value. this must not be zero"")]";
"    InvalidTagForStringValueError(),";
"";
"    /// This error is raised when a tag is invalid for the tagged-integer value.";
"    #[error(""invalid tag for integer value. this must be less than or equal 0x1f"")]";
"    InvalidTagForIntegerValueError(),";
"";
"    /// This error is raised when computation of hash fails using openssl hash";
"    #[error(""computation of hash failed: {0}"")]";
"    HashComputationFailed(String),";
"}";
"";
"pub type AVPType = u8;";
"";
"pub const TYPE_INVALID: AVPType = 255;";
"";
"/// This struct represents a attribute-value pair.";
"#[derive(Debug, Clone, PartialEq)]";
"pub struct AVP {";
"    pub(crate) typ: AVPType,";
"    pub(crate) value: Vec<u8>,";
"}";
"";
"impl AVP {";
"    /// (This method is for dictionary developers) make an AVP from a u32 value.";
"    pub fn from_u32(typ: AVPType, value: u32) -> Self {";
"        AVP {";
"            typ,";
"            value: u32::to_be_bytes(value).to_vec(),";
"        }";
"    }";
"";
"    /// (This method is for dictionary developers) make an AVP from a u16 value.";
"    pub fn from_u16(typ: AVPType, value: u16) -> Self {";
"        AVP {";
"            typ,";
"            value: u16::to_be_bytes(value).to_vec(),";
"        }";
"    }";
"";
"    /// (This method is for dictionary developers) make an AVP from a tagged u32 value.";
"    pub fn from_tagged_u32(typ: AVPType, tag: Option<&Tag>, value: u32) -> Self {";
"        let tag = match tag {";
"            None => &Tag {";
"                value: UNUSED_TAG_VALUE,";
"            },";
"            Some(tag) => tag,";
"        };";
"";
"        AVP {";
"            typ,";
"            value: [vec![tag.value], u32::to_be_bytes(value).to_vec()].concat(),";
"        }";
"    }";
"";
"    /// (This method is for dictionary developers) make an AVP from a string value.";
"    pub fn from_string(typ: AVPType, value: &str) -> Self {";
"        AVP {";
"            typ,";
"            value: value.as_bytes().to_vec(),";
"        }";
"    }";
"";
"    /// (This method is for dictionary developers) make an AVP from a tagged string value.";
"    pub fn from_tagged_string(typ: AVPType, tag: Option<&Tag>, value: &str) -> Self {";
"        match tag {";
"            None => AVP {";
"                typ,";
"                value: value.as_bytes().to_vec(),";
"            },";
"            Some(tag) => AVP {";
"                typ,";
"                value: [vec![tag.value], value.as_bytes().to_vec()].concat(),";
"            },";
"        }";
"    }";
"";
"    /// (This method is for dictionary developers) make an AVP from bytes.";
"    pub fn from_bytes(typ: AVPType, value: &[u8]) -> Self {";
"        AVP {";
"            typ,";
"            value: value.to_vec(),";
"        }";
"    }";
"";
"    /// (This method is for dictionary developers) make an AVP from a IPv4 value.";
"    pub fn from_ipv4(typ: AVPType, value: &Ipv4Addr) -> Self {";
"        AVP {";
"            typ,";
"            value: value.octets().to_vec(),";
"        }";
"    }";
"";
"    /// (This method is for dictionary developers) make an AVP from a IPv4-prefix value.";
"    pub fn from_ipv4_prefix(typ: AVPType, prefix: &[u8]) -> Result<Self, AVPError> {";
"        let prefix_len = prefix.len();";
"        if prefix_len != 4 {";
"            return Err(AVPError::InvalidAttributeLengthError(";
"                ""4 bytes"".to_owned(),";
"                prefix_len,";
"            ));";
"        }";
"";
"        Ok(AVP {";
"            typ,";
"            value: [vec![0x00, prefix_len as u8 & 0b00111111], prefix.to_vec()].concat::<u8>(),";
"        })";
"    }";
"";
"    /// (This method is for dictionary developers) make an AVP from a IPv6 value.";
"    pub fn from_ipv6(typ: AVPType, value: &Ipv6Addr) -> Self {";
"        AVP {";
"            typ,";
"            value: value.octets().to_vec(),";
"        }";
"    }";
"";
"    /// (This method is for dictionary developers) make an AVP from a IPv6-prefix value.";
"    pub fn from_ipv6_prefix(typ: AVPType, prefix: &[u8]) -> Result<Self, AVPError> {";
"        let prefix_len = prefix.len();";
"        if prefix_len > 16 {";
"            return Err(AVPError::InvalidAttributeLengthError(";
"                ""16 bytes"".to_owned(),";
"                prefix_len,";
"            ));";
"        }";
"";
"        Ok(AVP {";
"            typ,";
"            value: [vec![0x00, (prefix_len * 8) as u8], prefix.to_vec()].concat::<u8>(),";
"        })";
"    }";
"";
"    #[cfg(feature = ""md5"")]";
"    /// (This method is for dictionary developers) make an AVP from a user-password value.";
"    /// see also: https://tools.ietf.org/html/rfc2865#section-5.2";
"    pub fn from_user_password(";
"        typ: AVPType,";
"        plain_text: &[u8],";
"        secret: &[u8],";
"        request_authenticator: &[u8],";
"    ) -> Result<Self, AVPError> {";
"        // Call the shared secret S and the pseudo-random 128-bit Request";
"        // Authenticator RA.  Break the password into 16-octet chunks p1, p2,";
"        // etc.  with the last one padded at the end with nulls to a 16-octet";
"        // boundary.  Call the ciphertext blocks c(1), c(2), etc.  We'll need";
"        // intermediate values b1, b2, etc.";
"        //";
"        //    b1 = MD5(S + RA)       c(1) = p1 xor b1";
"        //    b2 = MD5(S + c(1))     c(2) = p2 xor b2";
"        //           .                       .";
"        //           .                       .";
"        //           .                       .";
"        //    bi = MD5(S + c(i-1))   c(i) = pi xor bi";
"        //";
"        // ref: https://tools.ietf.org/html/rfc2865#section-5.2";
"";
"        if plain_text.len() > 128 {";
"            return Err(AVPError::UserPasswordPlainTextMaximumLengthExceededError(";
"                plain_text.len(),";
"            ));";
"        }";
"";
"        if secret.is_empty() {";
"            return Err(AVPError::PasswordSecretMissingError());";
"        }";
"";
"        if request_authenticator.len() != 16 {";
"            return Err(AVPError::InvalidRequestAuthenticatorLength());";
"        }";
"";
"        let mut buff = request_authenticator.to_vec();";
"";
"        if plain_text.is_empty() {";
"            let enc = compute([secret, &buff[..]].concat()).to_vec();";
"            return Ok(AVP {";
"                typ,";
"                value: enc.iter().zip(vec![0; 16]).map(|(d, p)| d ^ p).collect(),";
"            });";
"        }";
"";
"        let mut enc: Vec<u8> = Vec::new();";
"        for chunk in plain_text.chunks(16) {";
"            let mut chunk_vec = chunk.to_vec();";
"            let l = chunk.len();";
"            if l < 16 {";
"                chunk_vec.extend(vec![0; 16 - l]); // zero padding";
"            }";
"";
"            let enc_block = compute([secret, &buff[..]].concat()).to_vec();";
"            buff = enc_block";
"                .iter()";
"                .zip(chunk_vec)";
"                .map(|(d, p)| d ^ p)";
"                .collect();";
"            enc.extend(&buff);";
"        }";
"";
"        Ok(AVP { typ, value: enc })";
"    }";
"";
"    #[cfg(feature = ""openssl"")]";
"    /// (This method is for dictionary developers) make an AVP from a user-password value.";
"    /// see also: https://tools.ietf.org/html/rfc2865#section-5.2";
"    pub fn from_user_password(";
"        typ: AVPType,";
"        plain_text: &[u8],";
"        secret: &[u8],";
"        request_authenticator: &[u8],";
"    ) -> Result<Self, AVPError> {";
"        // Call the shared secret S and the pseudo-random 128-bit Request";
"        // Authenticator RA.  Break the password into 16-octet chunks p1, p2,";
"        // etc.  with the last one padded at the end with nulls to a 16-octet";
"        // boundary.  Call the ciphertext blocks c(1), c(2), etc.  We'll need";
"        // intermediate values b1, b2, etc.";
"        //";
"        //    b1 = MD5(S + RA)       c(1) = p1 xor b1";
"        //    b2 = MD5(S + c(1))     c(2) = p2 xor b2";
"        //           .                       .";
"        //           .                       .";
"        //           .                       .";
"        //    bi = MD5(S + c(i-1))   c(i) = pi xor bi";
"        //";
"        // ref: https://tools.ietf.org/html/rfc2865#section-5.2";
"";
"        if plain_text.len() > 128 {";
"            return Err(AVPError::UserPasswordPlainTextMaximumLengthExceededError(";
"                plain_text.len(),";
"            ));";
"        }";
"";
"        if secret.is_empty() {";
"            return Err(AVPError::PasswordSecretMissingError());";
"        }";
"";
"        if request_authenticator.len() != 16 {";
"            return Err(AVPError::InvalidRequestAuthenticatorLength());";
"        }";
"";
"        let mut buff = request_authenticator.to_vec();";
"";
"        if plain_text.is_empty() {";
"            let hash_val = hash(MessageDigest::md5(), &[secret, &buff[..]].concat());";
"            let enc_block = if let Err(_err) = hash_val {";
"                return Err(AVPError::HashComputationFailed(_err.to_string()));";
"            } else {";
"                hash_val.unwrap()";
"            };";
"            return Ok(AVP {";
"                typ,";
"                value: enc_block";
"                    .iter()";
"                    .zip(vec![0; 16])";
"                    .map(|(d, p)| d ^ p)";
"                    .collect(),";
"            });";
"        }";
"";
"        let mut enc: Vec<u8> = Vec::new();";
"        for chunk in plain_text.chunks(16) {";
"            let mut chunk_vec = chunk.to_vec();";
"            let l = chunk.len();";
"            if l < 16 {";
"                chunk_vec.extend(vec![0; 16 - l]); // zero padding";
"            }";
"";
"            let hash_val = hash(MessageDigest::md5(), &[secret, &buff[..]].concat());";
"            let enc_block = if let Err(_err) = hash_val {";
"                return Err(AVPError::HashComputationFailed(_err.to_string()));";
"            } else {";
"                hash_val.unwrap()";
"            };";
"            buff = enc_block";
"                .iter()";
"                .zip(chunk_vec)";
"                .map(|(d, p)| d ^ p)";
"                .collect();";
"            enc.extend(&buff);";
"        }";
"";
"        Ok(AVP { typ, value: enc })";
"    }";
"";
"    /// (This method is for dictionary developers) make an AVP from a date value.";
"    pub fn from_date(typ: AVPType, dt: &DateTime<Utc>) -> Self {";
"        AVP {";
"            typ,";
"            value: u32::to_be_bytes(dt.timestamp() as u32).to_vec(),";
"        }";
"    }";
"";
"    #[cfg(feature = ""md5"")]";
"    /// (This method is for dictionary developers) make an AVP from a tunne-password value.";
"    /// see also: https://tools.ietf.org/html/rfc2868#section-3.5";
"    pub fn from_tunnel_password(";
"        typ: AVPType,";
"        tag: Option<&Tag>,";
"        plain_text: &[u8],";
"        secret: &[u8],";
"        request_authenticator: &[u8],";
"    ) -> Result<Self, AVPError> {";
"        /*";
"         *   0                   1                   2                   3";
"         *   0 1 2 3 4 5 6 7 8 9 0 1 2 3 4 5 6 7 8 9 0 1 2 3 4 5 6 7 8 9 0 1";
"         *  +-+-+-+-+-+-+-+-+-+-+-+-+-+-+-+-+-+-+-+-+-+-+-+-+-+-+-+-+-+-+-+-+";
"         *  |     Type      |    Length     |     Tag       |   Salt";
"         *  +-+-+-+-+-+-+-+-+-+-+-+-+-+-+-+-+-+-+-+-+-+-+-+-+-+-+-+-+-+-+-+-+";
"         *     Salt (cont)  |   String ...";
"         *  +-+-+-+-+-+-+-+-+-+-+-+-+-+-+-+-+";
"         *";
"         *    b(1) = MD5(S + R + A)    c(1) = p(1) xor b(1)   C = c(1)";
"         *    b(2) = MD5(S + c(1))     c(2) = p(2) xor b(2)   C = C + c(2)";
"         *                .                      .";
"         *                .                      .";
"         *                .                      .";
"         *    b(i) = MD5(S + c(i-1))   c(i) = p(i) xor b(i)   C = C + c(i)";
"         *";
"         *  The resulting encrypted String field will contain";
"         *  c(1)+c(2)+...+c(i).";
"         *";
"         *  https://tools.ietf.org/html/rfc2868#section-3.5";
"         */";
"";
"        if request_authenticator.len() > 240 {";
"            return Err(AVPError::InvalidAttributeLengthError(";
"                ""240 bytes"".to_owned(),";
"                request_authenticator.len(),";
"            ));";
"        }";
"";
"        let mut rng = rand::thread_rng();";
"        let salt: [u8; 2] = [rng.gen::<u8>() | 0x80, rng.gen::<u8>()];";
"";
"        if secret.is_empty() {";
"            return Err(AVPError::PasswordSecretMissingError());";
"        }";
"";
"        if request_authenticator.len() != 16 {";
"            return Err(AVPError::InvalidRequestAuthenticatorLength());";
"        }";
"";
"        // NOTE: prepend one byte as a tag and two bytes as a salt";
"        // TODO: should it separate them to private struct fields?";
"        let mut enc: Vec<u8> = [";
"            vec![tag.map_or(UNUSED_TAG_VALUE, |v| v.value)],";
"            salt.to_vec(),";
"        ]";
"        .concat();";
"";
"        let mut buff = [request_authenticator, &salt].concat();";
"        if plain_text.is_empty() {";
"            return Ok(AVP {";
"                typ,";
"                value: [";
"                    enc,";
"                    compute([secret, &buff[..]].concat())";
"                        .iter()";
"                        .zip(vec![0; 16])";
"                        .map(|(d, p)| d ^ p)";
"                        .collect::<Vec<u8>>(),";
"                ]";
"                .concat(),";
"            });";
"        }";
"";
"        for chunk in plain_text.chunks(16) {";
"            let mut chunk_vec = chunk.to_vec();";
"            let l = chunk.len();";
"            if l < 16 {";
"                chunk_vec.extend(vec![0; 16 - l]); // zero padding";
"            }";
"";
"            let enc_block = compute([secret, &buff[..]].concat()).to_vec();";
"            buff = enc_block";
"                .iter()";
"                .zip(chunk_vec)";
"                .map(|(d, p)| d ^ p)";
"                .collect();";
"            enc.extend(&buff);";
"        }";
"";
"        Ok(AVP { typ, value: enc })";
"    }";
"";
"    #[cfg(feature = ""openssl"")]";
"    /// (This method is for dictionary developers) make an AVP from a tunne-password value.";
"    /// see also: https://tools.ietf.org/html/rfc2868#section-3.5";
"    pub fn from_tunnel_password(";
"        typ: AVPType,";
"        tag: Option<&Tag>,";
"        plain_text: &[u8],";
"        secret: &[u8],";
"        request_authenticator: &[u8],";
"    ) -> Result<Self, AVPError> {";
"        /*";
"         *   0                   1                   2                   3";
"         *   0 1 2 3 4 5 6 7 8 9 0 1 2 3 4 5 6 7 8 9 0 1 2 3 4 5 6 7 8 9 0 1";
"         *  +-+-+-+-+-+-+-+-+-+-+-+-+-+-+-+-+-+-+-+-+-+-+-+-+-+-+-+-+-+-+-+-+";
"         *  |     Type      |    Length     |     Tag       |   Salt";
"         *  +-+-+-+-+-+-+-+-+-+-+-+-+-+-+-+-+-+-+-+-+-+-+-+-+-+-+-+-+-+-+-+-+";
"         *     Salt (cont)  |   String ...";
"         *  +-+-+-+-+-+-+-+-+-+-+-+-+-+-+-+-+";
"         *";
"         *    b(1) = MD5(S + R + A)    c(1) = p(1) xor b(1)   C = c(1)";
"         *    b(2) = MD5(S + c(1))     c(2) = p(2) xor b(2)   C = C + c(2)";
"         *                .                      .";
"         *                .                      .";
"         *                .                      .";
"         *    b(i) = MD5(S + c(i-1))   c(i) = p(i) xor b(i)   C = C + c(i)";
"         *";
"         *  The resulting encrypted String field will contain";
"         *  c(1)+c(2)+...+c(i).";
"         *";
"         *  https://tools.ietf.org/html/rfc2868#section-3.5";
"         */";
"";
"        if request_authenticator.len() > 240 {";
"            return Err(AVPError::InvalidAttributeLengthError(";
"                ""240 bytes"".to_owned(),";
"                request_authenticator.len(),";
"            ));";
"        }";
"";
"        let mut rng = rand::thread_rng();";
"        let salt: [u8; 2] = [rng.gen::<u8>() | 0x80, rng.gen::<u8>()];";
"";
"        if secret.is_empty() {";
"            return Err(AVPError::PasswordSecretMissingError());";
"        }";
"";
"        if request_authenticator.len() != 16 {";
"            return Err(AVPError::InvalidRequestAuthenticatorLength());";
"        }";
"";
"        // NOTE: prepend one byte as a tag and two bytes as a salt";
"        // TODO: should it separate them to private struct fields?";
"        let mut enc: Vec<u8> = [";
"            vec![tag.map_or(UNUSED_TAG_VALUE, |v| v.value)],";
"            salt.to_vec(),";
"        ]";
"        .concat();";
"";
"        let mut buff = [request_authenticator, &salt].concat();";
"        let hash_val = hash(MessageDigest::md5(), &[secret, &buff[..]].concat());";
"        let enc_block = if let Err(_err) = hash_val {";
"            return Err(AVPError::HashComputationFailed(_err.to_string()));";
"        } else {";
"            hash_val.unwrap()";
"        };";
"";
"        if plain_text.is_empty() {";
"            return Ok(AVP {";
"                typ,";
"                value: [";
"                    enc,";
"                    enc_block";
"                        .iter()";
"                        .zip(vec![0; 16])";
"                        .map(|(d, p)| d ^ p)";
"                        .collect::<Vec<u8>>(),";
"                ]";
"                .concat(),";
"            });";
"        }";
"";
"        for chunk in plain_text.chunks(16) {";
"            let mut chunk_vec = chunk.to_vec();";
"            let l = chunk.len();";
"            if l < 16 {";
"                chunk_vec.extend(vec![0; 16 - l]); // zero padding";
"            }";
"";
"            let hash_val = hash(MessageDigest::md5(), &[secret, &buff[..]].concat());";
"            let enc_block = if let Err(_err) = hash_val {";
"                return Err(AVPError::HashComputationFailed(_err.to_string()));";
"            } else {";
"                hash_val.unwrap()";
"            };";
"            buff = enc_block";
"                .iter()";
"                .zip(chunk_vec)";
"                .map(|(d, p)| d ^ p)";
"                .collect();";
"            enc.extend(&buff);";
"        }";
"";
"        Ok(AVP { typ, value: enc })";
"    }";
"";
"    /// (This method is for dictionary developers) encode an AVP into a u32 value.";
"    pub fn encode_u32(&self) -> Result<u32, AVPError> {";
"        const U32_SIZE: usize = std::mem::size_of::<u32>();";
"        if self.value.len() != U32_SIZE {";
"            return Err(AVPError::InvalidAttributeLengthError(";
"                format!(""{U32_SIZE} bytes""),";
"                self.value.len(),";
"            ));";
"        }";
"";
"        let (int_bytes, _) = self.value.split_at(U32_SIZE);";
"        match int_bytes.try_into() {";
"            Ok(boxed_array) => Ok(u32::from_be_bytes(boxed_array)),";
"            Err(e) => Err(AVPError::DecodingError(e.to_string())),";
"        }";
"    }";
"";
"    /// (This method is for dictionary developers) encode an AVP into a u16 value.";
"    pub fn encode_u16(&self) -> Result<u16, AVPError> {";
"        const U16_SIZE: usize = std::mem::size_of::<u16>();";
"        if self.value.len() != U16_SIZE {";
"            return Err(AVPError::InvalidAttributeLengthError(";
"                format!(""{U16_SIZE} bytes""),";
"                self.value.len(),";
"            ));";
"        }";
"";
"        let (int_bytes, _) = self.value.split_at(U16_SIZE);";
"        match int_bytes.try_into() {";
"            Ok(boxed_array) => Ok(u16::from_be_bytes(boxed_array)),";
"            Err(e) => Err(AVPError::DecodingError(e.to_string())),";
"        }";
"    }";
"";
"    /// (This method is for dictionary developers) encode an AVP into a tag and u32 value.";
"    pub fn encode_tagged_u32(&self) -> Result<(u32, Tag), AVPError> {";
"        if self.value.is_empty() {";
"            return Err(AVPError::TagMissingError());";
"        }";
"";
"        let tag = Tag {";
"            value: self.value[0],";
"        };";
"";
"        // ref RFC2868:";
"        //   Valid values for this field are 0x01 through 0x1F,";
"        //   inclusive.  If the Tag field is unused, it MUST be zero (0x00)";
"        if !tag.is_valid_value() && !tag.is_zero() {";
"            return Err(AVPError::InvalidTagForIntegerValueError());";
"        }";
"";
"        const U32_SIZE: usize = std::mem::size_of::<u32>();";
"        if self.value[1..].len() != U32_SIZE {";
"            return Err(AVPError::InvalidAttributeLengthError(";
"                format!(""{} bytes"", U32_SIZE + 1),";
"                self.value.len(),";
"            ));";
"        }";
"        let (int_bytes, _) = self.value[1..].split_at(U32_SIZE);";
"        match int_bytes.try_into() {";
"            Ok(boxed_array) => Ok((u32::from_be_bytes(boxed_array), tag)),";
"            Err(e) => Err(AVPError::DecodingError(e.to_string())),";
"        }";
"    }";
"";
"    /// (This method is for dictionary developers) encode an AVP into a string value.";
"    pub fn encode_string(&self) -> Result<String, AVPError> {";
"        match String::from_utf8(self.value.to_vec()) {";
"            Ok(str) => Ok(str),";
"            Err(e) => Err(AVPError::DecodingError(e.to_string())),";
"        }";
"    }";
"";
"    /// (This method is for dictionary developers) encode an AVP into a tag and string value.";
"    pub fn encode_tagged_string(&self) -> Result<(String, Option<Tag>), AVPError> {";
"        let string_vec = self.value.to_vec();";
"        if string_vec.is_empty() {";
"            return Err(AVPError::TagMissingError());";
"        }";
"";
"        let tag = Tag {";
"            value: string_vec[0],";
"        };";
"";
"        // ref RFC2868:";
"        //   If the value of the Tag field is greater than 0x00";
"        //   and less than or equal to 0x1F, it SHOULD be interpreted as";
"        //   indicating which tunnel (of several alternatives) this attribute";
"        //   pertains.";
"        if tag.is_valid_value() {";
"            return match String::from_utf8(string_vec[1..].to_vec()) {";
"                Ok(str) => Ok((str, Some(tag))),";
"                Err(e) => Err(AVPError::DecodingError(e.to_string())),";
"            };";
"        }";
"";
"        if tag.is_zero() {";
"            return Err(AVPError::InvalidTagForStringValueError());";
"        }";
"";
"        // ref RFC2868:";
"        //   If the Tag field is greater than 0x1F, it SHOULD be";
"        //   interpreted as the first byte of the following String field.";
"        match String::from_utf8(self.value.to_vec()) {";
"            Ok(str) => Ok((str, None)),";
"            Err(e) => Err(AVPError::DecodingError(e.to_string())),";
"        }";
"    }";
"";
"    /// (This method is for dictionary developers) encode an AVP into bytes.";
"    pub fn encode_bytes(&self) -> Vec<u8> {";
"        self.value.to_vec()";
"    }";
"";
"    /// (This method is for dictionary developers) encode an AVP into Ipv4 value.";
"    pub fn encode_ipv4(&self) -> Result<Ipv4Addr, AVPError> {";
"        const IPV4_SIZE: usize = std::mem::size_of::<Ipv4Addr>();";
"        if self.value.len() != IPV4_SIZE {";
"            return Err(AVPError::InvalidAttributeLengthError(";
"                format!(""{IPV4_SIZE} bytes""),";
"                self.value.len(),";
"            ));";
"        }";
"";
"        let (int_bytes, _) = self.value.split_at(IPV4_SIZE);";
"        match int_bytes.try_into() {";
"            Ok::<[u8; IPV4_SIZE], _>(boxed_array) => Ok(Ipv4Addr::from(boxed_array)),";
"            Err(e) => Err(AVPError::DecodingError(e.to_string())),";
"        }";
"    }";
"";
"    /// (This method is for dictionary developers) encode an AVP into Ipv4-prefix value.";
"    pub fn encode_ipv4_prefix(&self) -> Result<Vec<u8>, AVPError> {";
"        match self.value.len() == 6 {";
"            true => Ok(self.value[2..].to_owned()),";
"            false => Err(AVPError::InvalidAttributeLengthError(";
"                ""6 bytes"".to_owned(),";
"                self.value.len(),";
"            )),";
"        }";
"    }";
"";
"    /// (This method is for dictionary developers) encode an AVP into Ipv6 value.";
"    pub fn encode_ipv6(&self) -> Result<Ipv6Addr, AVPError> {";
"        const IPV6_SIZE: usize = std::mem::size_of::<Ipv6Addr>();";
"        if self.value.len() != IPV6_SIZE {";
"            return Err(AVPError::InvalidAttributeLengthError(";
"                format!(""{IPV6_SIZE} bytes""),";
"                self.value.len(),";
"            ));";
"        }";
"";
"        let (int_bytes, _) = self.value.split_at(IPV6_SIZE);";
"        match int_bytes.try_into() {";
"            Ok::<[u8; IPV6_SIZE], _>(boxed_array) => Ok(Ipv6Addr::from(boxed_array)),";
"            Err(e) => Err(AVPError::DecodingError(e.to_string())),";
"        }";
"    }";
"";
"    /// (This method is for dictionary developers) encode an AVP into Ipv6-prefix value.";
"    pub fn encode_ipv6_prefix(&self) -> Result<Vec<u8>, AVPError> {";
"        match self.value.len() >= 2 {";
"            true => Ok(self.value[2..].to_owned()),";
"            false => Err(AVPError::InvalidAttributeLengthError(";
"                ""2+ bytes"".to_owned(),";
"                self.value.len(),";
"            )),";
"        }";
"    }";
"";
"    #[cfg(feature = ""md5"")]";
"    /// (This method is for dictionary developers) encode an AVP into user-password value as bytes.";
"    pub fn encode_user_password(";
"        &self,";
"        secret: &[u8],";
"        request_authenticator: &[u8],";
"    ) -> Result<Vec<u8>, AVPError> {";
"        if self.value.len() < 16 || self.value.len() > 128 {";
"            return Err(AVPError::InvalidAttributeLengthError(";
"                ""16 >= bytes && 128 <= bytes"".to_owned(),";
"                self.value.len(),";
"            ));";
"        }";
"";
"        if secret.is_empty() {";
"            return Err(AVPError::PasswordSecretMissingError());";
"        }";
"";
"        if request_authenticator.len() != 16 {";
"            return Err(AVPError::InvalidRequestAuthenticatorLength());";
"        }";
"";
"        let mut dec: Vec<u8> = Vec::new();";
"        let mut buff: Vec<u8> = request_authenticator.to_vec();";
"";
"        // NOTE:";
"        // It ensures attribute value has 16 bytes length at least because the value is encoded by md5.";
"        // And this must be aligned by each 16 bytes length.";
"        for chunk in self.value.chunks(16) {";
"            let chunk_vec = chunk.to_vec();";
"            let dec_block = compute([secret, &buff[..]].concat()).to_vec();";
"            dec.extend(";
"                dec_block";
"                    .iter()";
"                    .zip(&chunk_vec)";
"                    .map(|(d, p)| d ^ p)";
"                    .collect::<Vec<u8>>(),";
"            );";
"            buff = chunk_vec.clone();";
"        }";
"";
"        // remove trailing zero bytes";
"        match dec.split(|b| *b == 0).next() {";
"            Some(dec) => Ok(dec.to_vec()),";
"            None => Ok(vec![]),";
"        }";
"    }";
"";
"    #[cfg(feature = ""openssl"")]";
"    // (This method is for dictionary developers) encode an AVP into user-password value as bytes.";
"    pub fn encode_user_password(";
"        &self,";
"        secret: &[u8],";
"        request_authenticator: &[u8],";
"    ) -> Result<Vec<u8>, AVPError> {";
"        if self.value.len() < 16 || self.value.len() > 128 {";
"            return Err(AVPError::InvalidAttributeLengthError(";
"                ""16 >= bytes && 128 <= bytes"".to_owned(),";
"                self.value.len(),";
"            ));";
"        }";
"";
"        if secret.is_empty() {";
"            return Err(AVPError::PasswordSecretMissingError());";
"        }";
"";
"        if request_authenticator.len() != 16 {";
"            return Err(AVPError::InvalidRequestAuthenticatorLength());";
"        }";
"";
"        let mut dec: Vec<u8> = Vec::new();";
"        let mut buff: Vec<u8> = request_authenticator.to_vec();";
"";
"        // NOTE:";
"        // It ensures attribute value has 16 bytes length at least because the value is encoded by md5.";
"        // And this must be aligned by each 16 bytes length.";
"        for chunk in self.value.chunks(16) {";
"            let chunk_vec = chunk.to_vec();";
"            let hash_val = hash(MessageDigest::md5(), &[secret, &buff[..]].concat());";
"            let dec_block = if let Err(_err) = hash_val {";
"                return Err(AVPError::HashComputationFailed(_err.to_string()));";
"            } else {";
"                hash_val.unwrap()";
"            };";
"            dec.extend(";
"                dec_block";
"                    .iter()";
"                    .zip(&chunk_vec)";
"                    .map(|(d, p)| d ^ p)";
"                    .collect::<Vec<u8>>(),";
"            );";
"            buff = chunk_vec.clone();";
"        }";
"";
"        // remove trailing zero bytes";
"        match dec.split(|b| *b == 0).next() {";
"            Some(dec) => Ok(dec.to_vec()),";
"            None => Ok(vec![]),";
"        }";
"    }";
"";
"    /// (This method is for dictionary developers) encode an AVP into date value.";
"    pub fn encode_date(&self) -> Result<DateTime<Utc>, AVPError> {";
"        const U32_SIZE: usize = std::mem::size_of::<u32>();";
"        if self.value.len() != U32_SIZE {";
"            return Err(AVPError::InvalidAttributeLengthError(";
"                format!(""{U32_SIZE}""),";
"                self.value.len(),";
"            ));";
"        }";
"";
"        let (int_bytes, _) = self.value.split_at(U32_SIZE);";
"        match int_bytes.try_into() {";
"            Ok(boxed_array) => {";
"                let timestamp = u32::from_be_bytes(boxed_array);";
"                Ok(Utc.timestamp_opt(timestamp as i64, 0).unwrap())";
"            }";
"            Err(e) => Err(AVPError::DecodingError(e.to_string())),";
"        }";
"    }";
"";
"    #[cfg(feature = ""md5"")]";
"    /// (This method is for dictionary developers) encode an AVP into a tunnel-password value as bytes.";
"    pub fn encode_tunnel_password(";
"        &self,";
"        secret: &[u8],";
"        request_authenticator: &[u8],";
"    ) -> Result<(Vec<u8>, Tag), AVPError> {";
"        if self.value.len() < 19 || self.value.len() > 243 || (self.value.len() - 3) % 16 != 0 {";
"            return Err(AVPError::InvalidAttributeLengthError(";
"                ""19 <= bytes && bytes <= 242 && (bytes - 3) % 16 == 0"".to_owned(),";
"                self.value.len(),";
"            ));";
"        }";
"";
"        if self.value[1] & 0x80 != 0x80 {";
"            // salt";
"            return Err(AVPError::InvalidSaltMSBError(self.value[1]));";
"        }";
"";
"        if secret.is_empty() {";
"            return Err(AVPError::PasswordSecretMissingError());";
"        }";
"";
"        if request_authenticator.len() != 16 {";
"            return Err(AVPError::InvalidRequestAuthenticatorLength());";
"        }";
"";
"        let tag = Tag {";
"            value: self.value[0],";
"        };";
"        let mut dec: Vec<u8> = Vec::new();";
"        let mut buff: Vec<u8> =";
"            [request_authenticator.to_vec(), self.value[1..3].to_vec()].concat();";
"";
"        for chunk in self.value[3..].chunks(16) {";
"            let chunk_vec = chunk.to_vec();";
"            let dec_block = compute([secret, &buff[..]].concat()).to_vec();";
"            dec.extend(";
"                dec_block";
"                    .iter()";
"                    .zip(&chunk_vec)";
"                    .map(|(d, p)| d ^ p)";
"                    .collect::<Vec<u8>>(),";
"            );";
"            buff = chunk_vec.clone();";
"        }";
"";
"        // remove trailing zero bytes";
"        match dec.split(|b| *b == 0).next() {";
"            Some(dec) => Ok((dec.to_vec(), tag)),";
"            None => Ok((vec![], tag)),";
"        }";
"    }";
"";
"    #[cfg(feature = ""openssl"")]";
"    /// (This method is for dictionary developers) encode an AVP into a tunnel-password value as bytes.";
"    pub fn encode_tunnel_password(";
"        &self,";
"        secret: &[u8],";
"        request_authenticator: &[u8],";
"    ) -> Result<(Vec<u8>, Tag), AVPError> {";
"        if self.value.len() < 19 || self.value.len() > 243 || (self.value.len() - 3) % 16 != 0 {";
"            return Err(AVPError::InvalidAttributeLengthError(";
"                ""19 <= bytes && bytes <= 242 && (bytes - 3) % 16 == 0"".to_owned(),";
"                self.value.len(),";
"            ));";
"        }";
"";
"        if self.value[1] & 0x80 != 0x80 {";
"            // salt";
"            return Err(AVPError::InvalidSaltMSBError(self.value[1]));";
"        }";
"";
"        if secret.is_empty() {";
"            return Err(AVPError::PasswordSecretMissingError());";
"        }";
"";
"        if request_authenticator.len() != 16 {";
"            return Err(AVPError::InvalidRequestAuthenticatorLength());";
"        }";
"";
"        let tag = Tag {";
"            value: self.value[0],";
"        };";
"        let mut dec: Vec<u8> = Vec::new();";
"        let mut buff: Vec<u8> =";
"            [request_authenticator.to_vec(), self.value[1..3].to_vec()].concat();";
"";
"        for chunk in self.value[3..].chunks(16) {";
"            let chunk_vec = chunk.to_vec();";
"            let hash_val = hash(MessageDigest::md5(), &[secret, &buff[..]].concat());";
"            let dec_block = if let Err(_err) = hash_val {";
"                return Err(AVPError::HashComputationFailed(_err.to_string()));";
"            } else {";
"                hash_val.unwrap()";
"            };";
"            dec.extend(";
"                dec_block";
"                    .iter()";
"                    .zip(&chunk_vec)";
"                    .map(|(d, p)| d ^ p)";
"                    .collect::<Vec<u8>>(),";
"            );";
"            buff = chunk_vec.clone();";
"        }";
"";
"        // remove trailing zero bytes";
"        match dec.split(|b| *b == 0).next() {";
"            Some(dec) => Ok((dec.to_vec(), tag)),";
"            None => Ok((vec![], tag)),";
"        }";
"    }";
"}";
"";
"#[cfg(test)]";
"mod tests {";
"    use std::net::{Ipv4Addr, Ipv6Addr};";
"";
"    use chrono::Utc;";
"";
"    use crate::core::avp::{AVPError, AVP};";
"    use crate::core::tag::Tag;";
"";
"    #[test]";
"    fn it_should_convert_attribute_to_integer32() -> Result<(), AVPError> {";
"        let given_u32 = 16909060;";
"        let avp = AVP::from_u32(1, given_u32);";
"        assert_eq!(avp.encode_u32()?, given_u32);";
"        Ok(())";
"    }";
"";
"    #[test]";
"    fn it_should_convert_attribute_to_integer16() -> Result<(), AVPError> {";
"        let given_u16 = 65534;";
"        let avp = AVP::from_u16(1, given_u16);";
"        assert_eq!(avp.encode_u16()?, given_u16);";
"        Ok(())";
"    }";
"";
"    #[test]";
"    fn it_should_convert_attribute_to_tagged_integer32() -> Result<(), AVPError> {";
"        let given_u32 = 16909060;";
"        let avp = AVP::from_tagged_u32(1, None, given_u32);";
"        assert_eq!(avp.encode_tagged_u32()?, (given_u32, Tag::new_unused()));";
"";
"        let tag = Tag::new(2);";
"        let avp = AVP::from_tagged_u32(1, Some(&tag), given_u32);";
"        assert_eq!(avp.encode_tagged_u32()?, (given_u32, tag));";
"        Ok(())";
"    }";
"";
"    #[test]";
"    fn it_should_convert_attribute_to_string() -> Result<(), AVPError> {";
"        let given_str = ""Hello, World"";";
"        let avp = AVP::from_string(1, given_str);";
"        assert_eq!(avp.encode_string()?, given_str);";
"        Ok(())";
"    }";
"";
"    #[test]";
"    fn it_should_convert_tagged_attribute_to_string() -> Result<(), AVPError> {";
"        let given_str = ""Hello, World"";";
"        let avp = AVP::from_tagged_string(1, None, given_str);";
"        assert_eq!(avp.encode_tagged_string()?, (given_str.to_owned(), None));";
"";
"        let tag = Tag::new(3);";
"        let avp = AVP::from_tagged_string(1, Some(&tag), given_str);";
"        assert_eq!(";
"            avp.encode_tagged_string()?,";
"            (given_str.to_owned(), Some(tag))";
"        );";
"";
"        let avp = AVP::from_tagged_string(1, Some(&Tag::new_unused()), given_str);";
"        assert_eq!(";
"            avp.encode_tagged_string().unwrap_err(),";
"            AVPError::InvalidTagForStringValueError()";
"        );";
"";
"        Ok(())";
"    }";
"";
"    #[test]";
"    fn it_should_convert_attribute_to_byte() {";
"        let given_bytes = b""Hello, World"";";
"        let avp = AVP::from_bytes(1, given_bytes);";
"        assert_eq!(avp.encode_bytes(), given_bytes);";
"    }";
"";
"    #[test]";
"    fn it_should_convert_ipv4() -> Result<(), AVPError> {";
"        let given_ipv4 = Ipv4Addr::new(192, 0, 2, 1);";
"        let avp = AVP::from_ipv4(1, &given_ipv4);";
"        assert_eq!(avp.encode_ipv4()?, given_ipv4);";
"        Ok(())";
"    }";
"";
"    #[test]";
"    fn it_should_convert_ipv6() -> Result<(), AVPError> {";
"        let given_ipv6 = Ipv6Addr::new(";
"            0x2001, 0x0db8, 0x0000, 0x0000, 0x0000, 0x0000, 0x0000, 0x0001,";
"        );";
"        let avp = AVP::from_ipv6(1, &given_ipv6);";
"        assert_eq!(avp.encode_ipv6()?, given_ipv6);";
"        Ok(())";
"    }";
"";
"    #[test]";
"    fn it_should_convert_user_password() {";
"        let secret = b""12345"".to_vec();";
"        let request_authenticator = b""0123456789abcdef"".to_vec();";
"";
"        struct TestCase<'a> {";
"            plain_text: &'a str,";
"            expected_encoded_len: usize,";
"        }";
"";
"        let test_cases = &[";
"            TestCase {";
"                plain_text: """",";
"                expected_encoded_len: 16,";
"            },";
"            TestCase {";
"                plain_text: ""abc"",";
"                expected_encoded_len: 16,";
"            },";
"            TestCase {";
"                plain_text: ""0123456789abcde"",";
"                expected_encoded_len: 16,";
"            },";
"            TestCase {";
"                plain_text: ""0123456789abcdef"",";
"                expected_encoded_len: 16,";
"            },";
"            TestCase {";
"                plain_text: ""0123456789abcdef0"",";
"                expected_encoded_len: 32,";
"            },";
"            TestCase {";
"                plain_text: ""0123456789abcdef0123456789abcdef0123456789abcdef"",";
"                expected_encoded_len: 48,";
"            },";
"        ];";
"";
"        for test_case in test_cases {";
"            let user_password_avp_result = AVP::from_user_password(";
"                1,";
"                test_case.plain_text.as_bytes(),";
"                &secret,";
"                &request_authenticator,";
"            );";
"            let avp = user_password_avp_result.unwrap();";
"            assert_eq!(avp.value.len(), test_case.expected_encoded_len);";
"";
"            let decoded_password = avp";
"                .encode_user_password(&secret, &request_authenticator)";
"                .unwrap();";
"            assert_eq!(";
"                String::from_utf8(decoded_password).unwrap(),";
"                test_case.plain_text";
"            );";
"        }";
"    }";
"";
"    #[test]";
"    fn it_should_convert_date() -> Result<(), AVPError> {";
"        let now = Utc::now();";
"        let avp = AVP::from_date(1, &now);";
"        assert_eq!(avp.encode_date()?.timestamp(), now.timestamp(),);";
"        Ok(())";
"    }";
"";
"    #[test]";
"    fn it_should_convert_tunnel_password() -> Result<(), AVPError> {";
"        let tag = Tag { value: 0x1e };";
"        let secret = b""12345"".to_vec();";
"        let request_authenticator = b""0123456789abcdef"".to_vec();";
"";
"        struct TestCase<'a> {";
"            plain_text: &'a str,";
"            expected_encoded_len: usize,";
"        }";
"";
"        let test_cases = &[";
"            TestCase {";
"                plain_text: """",";
"                expected_encoded_len: 16 + 3,";
"            },";
"            TestCase {";
"                plain_text: ""abc"",";
"                expected_encoded_len: 16 + 3,";
"            },";
"            TestCase {";
"                plain_text: ""0123456789abcde"",";
"                expected_encoded_len: 16 + 3,";
"            },";
"            TestCase {";
"                plain_text: ""0123456789abcdef"",";
"                expected_encoded_len: 16 + 3,";
"            },";
"            TestCase {";
"                plain_text: ""0123456789abcdef0"",";
"                expected_encoded_len: 32 + 3,";
"            },";
"            TestCase {";
"                plain_text: ""0123456789abcdef0123456789abcdef0123456789abcdef"",";
"                expected_encoded_len: 48 + 3,";
"            },";
"        ];";
"";
"        for test_case in test_cases {";
"            let user_password_avp_result = AVP::from_tunnel_password(";
"                1,";
"                Some(&tag),";
"                test_case.plain_text.as_bytes(),";
"                &secret,";
"                &request_authenticator,";
"            );";
"            let avp = user_password_avp_result.unwrap();";
"            assert_eq!(avp.value.len(), test_case.expected_encoded_len);";
"";
"            let (decoded_password, got_tag) = avp";
"                .encode_tunnel_password(&secret, &request_authenticator)";
"                .unwrap();";
"            assert_eq!(got_tag, tag);";
"            assert_eq!(";
"                String::from_utf8(decoded_password).unwrap(),";
"                test_case.plain_text";
"            );";
"        }";
"";
"        Ok(())";
"    }";
"";
"    #[test]";
"    fn should_convert_ipv4_prefix() -> Result<(), AVPError> {";
"        let prefix = vec![0x01, 0x02, 0x03, 0x04];";
"        let avp = AVP::from_ipv4_prefix(1, &prefix)?;";
"        assert_eq!(avp.encode_ipv4_prefix()?, prefix);";
"";
"        Ok(())";
"    }";
"";
"    #[test]";
"    fn should_convert_ipv4_prefix_fail_because_of_invalid_prefix_length() {";
"        let avp = AVP::from_ipv4_prefix(1, &[0x01, 0x02, 0x03]);";
"        assert_eq!(";
"            avp.unwrap_err(),";
"            AVPError::InvalidAttributeLengthError(""4 bytes"".to_owned(), 3)";
"        );";
"";
"        let avp = AVP::from_ipv4_prefix(1, &[0x01, 0x02, 0x03, 0x04, 0x05]);";
"        assert_eq!(";
"            avp.unwrap_err(),";
"            AVPError::InvalidAttributeLengthError(""4 bytes"".to_owned(), 5)";
"        );";
"";
"        assert_eq!(";
"            AVP {";
"                typ: 1,";
"                value: vec![]";
"            }";
"            .encode_ipv4_prefix()";
"            .unwrap_err(),";
"            AVPError::InvalidAttributeLengthError(""6 bytes"".to_owned(), 0)";
"        );";
"    }";
"";
"    #[test]";
"    fn should_convert_ipv6_prefix() -> Result<(), AVPError> {";
"        let prefix = vec![];";
"        let avp = AVP::from_ipv6_prefix(1, &prefix)?;";
"        assert_eq!(avp.encode_ipv6_prefix()?, prefix);";
"";
"        let prefix = vec![0x00, 0x01, 0x02, 0x03];";
"        let avp = AVP::from_ipv6_prefix(1, &prefix)?;";
"        assert_eq!(avp.encode_ipv6_prefix()?, prefix);";
"";
"        let prefix = vec![";
"            0x00, 0x01, 0x02, 0x03, 0x04, 0x05, 0x06, 0x07, 0x08, 0x09, 0x0a, 0x0b, 0x0c, 0x0d,";
"            0x0e, 0x0f,";
"        ];";
"        let avp = AVP::from_ipv6_prefix(1, &prefix)?;";
"        assert_eq!(avp.encode_ipv6_prefix()?, prefix);";
"";
"        Ok(())";
"    }";
"";
"    #[test]";
"    fn should_convert_ipv6_prefix_fail_because_of_invalid_prefix_length() {";
"        let avp = AVP::from_ipv6_prefix(";
"            1,";
"            &[";
"                0x00, 0x01, 0x02, 0x03, 0x04, 0x05, 0x06, 0x07, 0x08, 0x09, 0x0a, 0x0b, 0x0c, 0x0d,";
"                0x0e, 0x0f, 0x10,";
"            ],";
"        );";
"        assert_eq!(";
"            avp.unwrap_err(),";
"            AVPError::InvalidAttributeLengthError(""16 bytes"".to_owned(), 17)";
"        );";
"    }";
"}"].

(** radius/src/core/packet.rs:1-717 *)
Definition source_packet : list string := [
"use std::convert::TryInto;";
"use std::fmt::Debug;";
"";
"use rand::Rng;";
"use thiserror::Error;";
"";
"use crate::core::attributes::Attributes;";
"use crate::core::avp::{AVPType, AVP};";
"use crate::core::code::Code;";
"";
"#[cfg(feature = ""md5"")]";
"use md5::compute;";
"";
"#[cfg(feature = ""openssl"")]";
"use openssl::hash::{hash, MessageDigest};";
"";
"const MAX_PACKET_LENGTH: usize = 4096;";
"const RADIUS_PACKET_HEADER_LENGTH: usize = 20; // i.e. minimum packet length";
"";
"#[derive(Error, Debug, PartialEq)]";
"pub enum PacketError {";
"    /// An error indicates the entire length of the given packet has insufficient length.";
"    #[error(""RADIUS packet doesn't have enough length of bytes; it has to be at least {0} bytes, but actual length was {1}"")]";
"    InsufficientPacketPayloadLengthError(usize, usize),";
"";
"    /// An error indicates the length that is instructed by a header is insufficient.";
"    #[error(""RADIUS packet header indicates the length as {0} bytes, but this is insufficient; this must have {1} bytes at least"")]";
"    InsufficientHeaderDefinedPacketLengthError(usize, usize),";
"";
"    /// An error indicates the length that is instructed by a header exceeds the maximum length of the RADIUS packet.";
"    #[error(""RADIUS packet header indicates the length as {0} bytes, but this exceeds the maximum length {1} bytes"")]";
"    HeaderDefinedPacketLengthExceedsMaximumLimitError(usize, usize),";
"";
"    /// An error that is raised when an error has been occurred on decoding bytes for a packet.";
"    #[error(""failed to decode the packet: {0}"")]";
"    DecodingError(String),";
"";
"    /// An error that is raised when an error has been occurred on encoding a packet into bytes.";
"    #[error(""failed to encode the packet: {0}"")]";
"    EncodingError(String),";
"";
"    /// An error that is raised when it received unknown packet type code of RADIUS.";
"    #[error(""Unknown RADIUS packet type code: {0}"")]";
"    UnknownCodeError(String),";
"";
"    /// This error is raised when computation of hash fails using openssl hash";
"    #[error(""computation of hash failed: {0}"")]";
"    HashComputationFailed(String),";
"}";
"";
"/// This struct represents a packet of RADIUS for request and response.";
"#[derive(Clone, PartialEq)]";
"pub struct Packet {";
"    code: Code,";
"    identifier: u8,";
"    authenticator: Vec<u8>,";
"    secret: Vec<u8>,";
"    attributes: Attributes,";
"}";
"";
"impl Packet {";
"    /// Constructor for a Packet.";
"    ///";
"    /// By default, this constructor makes an instance with a random identifier value.";
"    /// If you'd like to set an arbitrary identifier, please use `new_with_identifier()` constructor instead or `set_identifier()` method for created instance.";
"    pub fn new(code: Code, secret: &[u8]) -> Self {";
"        Self::_new(code, secret, None)";
"    }";
"";
"    /// Constructor for a Packet with arbitrary identifier value.";
"    ///";
"    /// If you want to make an instance with a random identifier value, please consider using `new()`.";
"    pub fn new_with_identifier(code: Code, secret: &[u8], identifier: u8) -> Self {";
"        Self::_new(code, secret, Some(identifier))";
"    }";
"";
"    fn _new(code: Code, secret: &[u8], maybe_identifier: Option<u8>) -> Self {";
"        let mut rng = rand::thread_rng();";
"        let authenticator = (0..16).map(|_| rng.gen()).collect::<Vec<u8>>();";
"        Packet {";
"            code: code.to_owned(),";
"            identifier: match maybe_identifier {";
"                Some(ident) => ident,";
"                None => rng.gen(),";
"            },";
"            authenticator,";
"            secret: secret.to_owned(),";
"            attributes: Attributes(vec![]),";
"        }";
"    }";
"";
"    pub fn get_code(&self) -> Code {";
"        self.code";
"    }";
"";
"    pub fn get_identifier(&self) -> u8 {";
"        self.identifier";
"    }";
"";
"    pub fn get_secret(&self) -> &Vec<u8> {";
"        &self.secret";
"    }";
"";
"    pub fn get_authenticator(&self) -> &Vec<u8> {";
"        &self.authenticator";
"    }";
"";
"    /// This sets an identifier value to an instance.";
"    pub fn set_identifier(&mut self, identifier: u8) {";
"        self.identifier = identifier;";
"    }";
"";
"    /// This decodes bytes into a Packet.";
"    pub fn decode(bs: &[u8], secret: &[u8]) -> Result<Self, PacketError> {";
"        if bs.len() < RADIUS_PACKET_HEADER_LENGTH {";
"            return Err(PacketError::InsufficientPacketPayloadLengthError(";
"                RADIUS_PACKET_HEADER_LENGTH,";
"                bs.len(),";
"            ));";
"        }";
"";
"        let len = match bs[2..4].try_into() {";
"            Ok(v) => u16::from_be_bytes(v),";
"            Err(e) => return Err(PacketError::DecodingError(e.to_string())),";
"        } as usize;";
"        if len < RADIUS_PACKET_HEADER_LENGTH {";
"            return Err(PacketError::InsufficientHeaderDefinedPacketLengthError(";
"                len,";
"                RADIUS_PACKET_HEADER_LENGTH,";
"            ));";
"        }";
"        if len > MAX_PACKET_LENGTH {";
"            return Err(";
"                PacketError::HeaderDefinedPacketLengthExceedsMaximumLimitError(";
"                    len,";
"                    MAX_PACKET_LENGTH,";
"                ),";
"            );";
"        }";
"        if bs.len() < len {";
"            return Err(PacketError::InsufficientPacketPayloadLengthError(";
"                len,";
"                bs.len(),";
"            ));";
"        }";
"";
"        let attributes = match Attributes::decode(&bs[RADIUS_PACKET_HEADER_LENGTH..len]) {";
"            Ok(attributes) => attributes,";
"            Err(e) => return Err(PacketError::DecodingError(e)),";
"        };";
"";
"        Ok(Packet {";
"            code: Code::from(bs[0]),";
"            identifier: bs[1],";
"            authenticator: bs[4..RADIUS_PACKET_HEADER_LENGTH].to_owned(),";
"            secret: secret.to_owned(),";
"            attributes,";
"        })";
"    }";
"";
"    /// This method makes a response packet according to self (i.e. request packet).";
"    pub fn make_response_packet(&self, code: Code) -> Self {";
"        Packet {";
"            code,";
"            identifier: self.identifier,";
"            authenticator: self.authenticator.clone(),";
"            secret: self.secret.clone(),";
"            attributes: Attributes(vec![]),";
"        }";
"    }";
"";
"    #[cfg(feature = ""md5"")]";
"    /// This method encodes the Packet into bytes.";
"    pub fn encode(&self) -> Result<Vec<u8>, PacketError> {";
"        let mut bs = match self.marshal_binary() {";
"            Ok(bs) => bs,";
"            Err(e) => return Err(PacketError::EncodingError(e)),";
"        };";
"";
"        match self.code {";
"            Code::AccessRequest | Code::StatusServer => Ok(bs),";
"            Code::AccessAccept";
"            | Code::AccessReject";
"            | Code::AccountingRequest";
"            | Code::AccountingResponse";
"            | Code::AccessChallenge";
"            | Code::DisconnectRequest";
"            | Code::DisconnectACK";
"            | Code::DisconnectNAK";
"            | Code::CoARequest";
"            | Code::CoAACK";
"            | Code::CoANAK => {";
"                let mut buf: Vec<u8> = bs[..4].to_vec();";
"                match self.code {";
"                    Code::AccountingRequest // see ""Request Authenticator"" in https://tools.ietf.org/html/rfc2866#section-3";
"                    | Code::DisconnectRequest // same as ""RFC2866""; https://tools.ietf.org/html/rfc5176#section-2.3";
"                    | Code::CoARequest // same as ""RFC2866""; https://tools.ietf.org/html/rfc5176#section-2.3";
"                    => {";
"                        buf.extend(vec![";
"                            0x00, 0x00, 0x00, 0x00, 0x00, 0x00, 0x00, 0x00, 0x00, 0x00, 0x00, 0x00,";
"                            0x00, 0x00, 0x00, 0x00,";
"                        ]);";
"                    }";
"                    _ => {";
"                        buf.extend(self.authenticator.clone()); // TODO take from `bs`?";
"                    }";
"                }";
"                buf.extend(bs[RADIUS_PACKET_HEADER_LENGTH..].to_vec());";
"                buf.extend(&self.secret);";
"                bs.splice(4..20, compute(&buf).to_vec());";
"";
"                Ok(bs)";
"            }";
"            _ => Err(PacketError::UnknownCodeError(format!(""{:?}"", self.code))),";
"        }";
"    }";
"";
"    #[cfg(feature = ""openssl"")]";
"    /// This method encodes the Packet into bytes.";
"    pub fn encode(&self) -> Result<Vec<u8>, PacketError> {";
"        let mut bs = match self.marshal_binary() {";
"            Ok(bs) => bs,";
"            Err(e) => return Err(PacketError::EncodingError(e)),";
"        };";
"";
"        match self.code {";
"            Code::AccessRequest | Code::StatusServer => Ok(bs),";
"            Code::AccessAccept";
"            | Code::AccessReject";
"            | Code::AccountingRequest";
"            | Code::AccountingResponse";
"            | Code::AccessChallenge";
"            | Code::DisconnectRequest";
"            | Code::DisconnectACK";
"            | Code::DisconnectNAK";
"            | Code::CoARequest";
"            | Code::CoAACK";
"            | Code::CoANAK => {";
"                let mut buf: Vec<u8> = bs[..4].to_vec();";
"                match self.code {";
"                    Code::AccountingRequest // see ""Request Authenticator"" in https://tools.ietf.org/html/rfc2866#section-3";
"                    | Code::DisconnectRequest // same as ""RFC2866""; https://tools.ietf.org/html/rfc5176#section-2.3";
"                    | Code::CoARequest // same as ""RFC2866""; https://tools.ietf.org/html/rfc5176#section-2.3";
"                    => {";
"                        buf.extend(vec![";
"                            0x00, 0x00, 0x00, 0x00, 0x00, 0x00, 0x00, 0x00, 0x00, 0x00, 0x00, 0x00,";
"                            0x00, 0x00, 0x00, 0x00,";
"                        ]);";
"                    }";
"                    _ => {";
"                        buf.extend(self.authenticator.clone()); // TODO take from `bs`?";
"                    }";
"                }";
"                buf.extend(bs[RADIUS_PACKET_HEADER_LENGTH..].to_vec());";
"                buf.extend(&self.secret);";
"                let hash_val = hash(MessageDigest::md5(), &buf);";
"                let enc = if let Err(_err) = hash_val {";
"                    return Err(PacketError::HashComputationFailed(_err.to_string()));";
"                } else {";
"                    hash_val.unwrap()";
"                };";
"                bs.splice(4..20, enc.to_vec());";
"";
"                Ok(bs)";
"            }";
"            _ => Err(PacketError::UnknownCodeError(format!(""{:?}"", self.code))),";
"        }";
"    }";
"";
"    /*";
"     * Binary structure:";
"     *   0                   1                   2                   3";
"     *   0 1 2 3 4 5 6 7 8 9 0 1 2 3 4 5 6 7 8 9 0 1 2 3 4 5 6 7 8 9 0 1";
"     *  +-+-+-+-+-+-+-+-+-+-+-+-+-+-+-+-+-+-+-+-+-+-+-+-+-+-+-+-+-+-+-+-+";
"     *  |     Code      |  Identifier   |            Length             |";
"     *  +-+-+-+-+-+-+-+-+-+-+-+-+-+-+-+-+-+-+-+-+-+-+-+-+-+-+-+-+-+-+-+-+";
"     *  |                                                               |";
"     *  |                         Authenticator                         |";
"     *  |                                                               |";
"     *  |                                                               |";
"     *  +-+-+-+-+-+-+-+-+-+-+-+-+-+-+-+-+-+-+-+-+-+-+-+-+-+-+-+-+-+-+-+-+";
"     *  |  Attributes ...";
"     *  +-+-+-+-+-+-+-+-+-+-+-+-+-";
"     */";
"    fn marshal_binary(&self) -> Result<Vec<u8>, String> {";
"        let encoded_avp = match self.attributes.encode() {";
"            Ok(encoded) => encoded,";
"            Err(e) => return Err(e),";
"        };";
"";
"        let size = RADIUS_PACKET_HEADER_LENGTH as u16 + encoded_avp.len() as u16;";
"        if size as usize > MAX_PACKET_LENGTH {";
"            return Err(""packet is too large"".to_owned());";
"        }";
"";
"        let mut bs: Vec<u8> = Vec::new();";
"        bs.push(self.code as u8);";
"        bs.push(self.identifier);";
"        bs.extend(u16::to_be_bytes(size).to_vec());";
"        bs.extend(self.authenticator.to_vec());";
"        bs.extend(match self.attributes.encode() {";
"            Ok(encoded) => encoded,";
"            Err(e) => return Err(e),";
"        });";
"        Ok(bs)";
"    }";
"";
"    #[cfg(feature = ""md5"")]";
"    /// Returns whether the Packet is authentic response or not.";
"    pub fn is_authentic_response(response: &[u8], request: &[u8], secret: &[u8]) -> bool {";
"        if response.len() < RADIUS_PACKET_HEADER_LENGTH";
"            || request.len() < RADIUS_PACKET_HEADER_LENGTH";
"            || secret.is_empty()";
"        {";
"            return false;";
"        }";
"";
"        compute(";
"            [";
"                &response[..4],";
"                &request[4..RADIUS_PACKET_HEADER_LENGTH],";
"                &response[RADIUS_PACKET_HEADER_LENGTH..],";
"                secret,";
"            ]";
"            .concat(),";
"        )";
"        .to_vec()";
"        .eq(&response[4..RADIUS_PACKET_HEADER_LENGTH].to_vec())";
"    }";
"";
"    #[cfg(feature = ""openssl"")]";
"    /// Returns whether the Packet is authentic response or not.";
"    pub fn is_authentic_response(response: &[u8], request: &[u8], secret: &[u8]) -> bool {";
"        if response.len() < RADIUS_PACKET_HEADER_LENGTH";
"            || request.len() < RADIUS_PACKET_HEADER_LENGTH";
"            || secret.is_empty()";
"        {";
"            return false;";
"        }";
"";
"        let hash_val = hash(";
"            MessageDigest::md5(),";
"            &[";
"                &response[..4],";
"                &request[4..RADIUS_PACKET_HEADER_LENGTH],";
"                &response[RADIUS_PACKET_HEADER_LENGTH..],";
"                secret,";
"            ]";
"            .concat(),";
"        );";
"        let enc = hash_val.expect(""Hash computation failed using openssl md5 digest algorithm"");";
"        enc.to_vec()";
"            .eq(&response[4..RADIUS_PACKET_HEADER_LENGTH].to_vec())";
"    }";
"";
"    #[cfg(feature = ""md5"")]";
"    /// Returns whether the Packet is authentic request or not.";
"    pub fn is_authentic_request(request: &[u8], secret: &[u8]) -> bool {";
"        if request.len() < RADIUS_PACKET_HEADER_LENGTH || secret.is_empty() {";
"            return false;";
"        }";
"";
"        match Code::from(request[0]) {";
"            Code::AccessRequest | Code::StatusServer => true,";
"            Code::AccountingRequest | Code::DisconnectRequest | Code::CoARequest => compute(";
"                [";
"                    &request[..4],";
"                    &[";
"                        0x00, 0x00, 0x00, 0x00, 0x00, 0x00, 0x00, 0x00, 0x00, 0x00, 0x00, 0x00,";
"                        0x00, 0x00, 0x00, 0x00,";
"                    ],";
"                    &request[RADIUS_PACKET_HEADER_LENGTH..],";
"                    secret,";
"                ]";
"                .concat(),";
"            )";
"            .to_vec()";
"            .eq(&request[4..RADIUS_PACKET_HEADER_LENGTH].to_vec()),";
"            _ => false,";
"        }";
"    }";
"";
"    #[cfg(feature = ""openssl"")]";
"    /// Returns whether the Packet is authentic request or not.";
"    pub fn is_authentic_request(request: &[u8], secret: &[u8]) -> bool {";
"        if request.len() < RADIUS_PACKET_HEADER_LENGTH || secret.is_empty() {";
"            return false;";
"        }";
"";
"        match Code::from(request[0]) {";
"            Code::AccessRequest | Code::StatusServer => true,";
"            Code::AccountingRequest | Code::DisconnectRequest | Code::CoARequest => {";
"                let hash_val = hash(";
"                    MessageDigest::md5(),";
"                    &[";
"                        &request[..4],";
"                        &[";
"                            0x00, 0x00, 0x00, 0x00, 0x00, 0x00, 0x00, 0x00, 0x00, 0x00, 0x00, 0x00,";
"                            0x00, 0x00, 0x00, 0x00,";
"                        ],";
"                        &request[RADIUS_PACKET_HEADER_LENGTH..],";
"                        secret,";
"                    ]";
"                    .concat(),";
"                );";
"                let enc =";
"                    hash_val.expect(""Hash computation failed using openssl md5 digest algorithm"");";
"";
"                enc.to_vec()";
"                    .eq(&request[4..RADIUS_PACKET_HEADER_LENGTH].to_vec())";
"            }";
"            _ => false,";
"        }";
"    }";
"";
"    /// Add an AVP to the list of AVPs.";
"    pub fn add(&mut self, avp: AVP) {";
"        self.attributes.add(avp);";
"    }";
"";
"    /// Add AVPs to the list of AVPs.";
"    pub fn extend(&mut self, avps: Vec<AVP>) {";
"        self.attributes.extend(avps)";
"    }";
"";
"    /// Delete all of AVPs from the list according to given AVP type.";
"    pub fn delete(&mut self, typ: AVPType) {";
"        self.attributes.del(typ);";
"    }";
"";
"    /// Returns an AVP that matches at first with the given AVP type. If there are not any matched ones, this returns `None`.";
"    pub fn lookup(&self, typ: AVPType) -> Option<&AVP> {";
"        self.attributes.lookup(typ)";
"    }";
"";
"    /// Returns AVPs that match with the given AVP type.";
"    pub fn lookup_all(&self, typ: AVPType) -> Vec<&AVP> {";
"        self.attributes.lookup_all(typ)";
"    }";
"}";
"";
"impl Debug for Packet {";
"    fn fmt(&self, f: &mut std::fmt::Formatter<'_>) -> std::fmt::Result {";
"        f.debug_struct(""Packet"")";
"            .field(""code"", &self.code)";
"            .field(""identifier"", &self.identifier)";
"            .field(""authenticator"", &self.authenticator)";
"            .field(""secret"", &""*redacted*"")";
"            .field(""attributes"", &self.attributes)";
"            .finish()";
"    }";
"}";
"";
"#[cfg(test)]";
"mod tests {";
"    use std::net::Ipv4Addr;";
"";
"    use crate::core::avp::AVP;";
"    use crate::core::code::Code;";
"    use crate::core::packet::{";
"        Packet, PacketError, MAX_PACKET_LENGTH, RADIUS_PACKET_HEADER_LENGTH,";
"    };";
"    use crate::core::rfc2865;";
"";
"    #[test]";
"    fn test_for_rfc2865_7_1() -> Result<(), PacketError> {";
"        // ref: https://tools.ietf.org/html/rfc2865#section-7.1";
"";
"        let secret: Vec<u8> = ""xyzzy5461"".as_bytes().to_vec();";
"        let request: Vec<u8> = vec![";
"            0x01, 0x00, 0x00, 0x38, 0x0f, 0x40, 0x3f, 0x94, 0x73, 0x97, 0x80, 0x57, 0xbd, 0x83,";
"            0xd5, 0xcb, 0x98, 0xf4, 0x22, 0x7a, 0x01, 0x06, 0x6e, 0x65, 0x6d, 0x6f, 0x02, 0x12,";
"            0x0d, 0xbe, 0x70, 0x8d, 0x93, 0xd4, 0x13, 0xce, 0x31, 0x96, 0xe4, 0x3f, 0x78, 0x2a,";
"            0x0a, 0xee, 0x04, 0x06, 0xc0, 0xa8, 0x01, 0x10, 0x05, 0x06, 0x00, 0x00, 0x00, 0x03,";
"        ];";
"";
"        let request_packet = Packet::decode(&request, &secret)?;";
"        assert_eq!(request_packet.code, Code::AccessRequest);";
"        assert_eq!(request_packet.identifier, 0);";
"        assert_eq!(";
"            rfc2865::lookup_user_name(&request_packet).unwrap().unwrap(),";
"            ""nemo""";
"        );";
"        assert_eq!(";
"            rfc2865::lookup_all_user_name(&request_packet).unwrap(),";
"            vec![""nemo""],";
"        );";
"        assert_eq!(";
"            rfc2865::lookup_user_password(&request_packet)";
"                .unwrap()";
"                .unwrap(),";
"            b""arctangent""";
"        );";
"        assert_eq!(";
"            rfc2865::lookup_nas_ip_address(&request_packet)";
"                .unwrap()";
"                .unwrap(),";
"            Ipv4Addr::from([192, 168, 1, 16]),";
"        );";
"        assert_eq!(";
"            rfc2865::lookup_nas_port(&request_packet).unwrap().unwrap(),";
"            3";
"        );";
"        assert_eq!(request_packet.encode().unwrap(), request);";
"        assert!(Packet::is_authentic_request(&request, &secret));";
"";
"        let response: Vec<u8> = vec![";
"            0x02, 0x00, 0x00, 0x26, 0x86, 0xfe, 0x22, 0x0e, 0x76, 0x24, 0xba, 0x2a, 0x10, 0x05,";
"            0xf6, 0xbf, 0x9b, 0x55, 0xe0, 0xb2, 0x06, 0x06, 0x00, 0x00, 0x00, 0x01, 0x0f, 0x06,";
"            0x00, 0x00, 0x00, 0x00, 0x0e, 0x06, 0xc0, 0xa8, 0x01, 0x03,";
"        ];";
"        let mut response_packet = request_packet.make_response_packet(Code::AccessAccept);";
"        rfc2865::add_service_type(&mut response_packet, rfc2865::SERVICE_TYPE_LOGIN_USER);";
"        rfc2865::add_login_service(&mut response_packet, rfc2865::LOGIN_SERVICE_TELNET);";
"        rfc2865::add_login_ip_host(&mut response_packet, &Ipv4Addr::from([192, 168, 1, 3]));";
"        assert_eq!(response_packet.encode().unwrap(), response);";
"        assert!(Packet::is_authentic_response(&response, &request, &secret));";
"";
"        // test removing a AVP";
"        assert!(rfc2865::lookup_service_type(&response_packet).is_some());";
"        rfc2865::delete_service_type(&mut response_packet);";
"        assert!(rfc2865::lookup_service_type(&response_packet).is_none());";
"";
"        Ok(())";
"    }";
"";
"    #[test]";
"    fn test_for_rfc2865_7_2() -> Result<(), PacketError> {";
"        let secret: Vec<u8> = ""xyzzy5461"".as_bytes().to_vec();";
"        let request: Vec<u8> = vec![";
"            0x01, 0x01, 0x00, 0x47, 0x2a, 0xee, 0x86, 0xf0, 0x8d, 0x0d, 0x55, 0x96, 0x9c, 0xa5,";
"            0x97, 0x8e, 0x0d, 0x33, 0x67, 0xa2, 0x01, 0x08, 0x66, 0x6c, 0x6f, 0x70, 0x73, 0x79,";
"            0x03, 0x13, 0x16, 0xe9, 0x75, 0x57, 0xc3, 0x16, 0x18, 0x58, 0x95, 0xf2, 0x93, 0xff,";
"            0x63, 0x44, 0x07, 0x72, 0x75, 0x04, 0x06, 0xc0, 0xa8, 0x01, 0x10, 0x05, 0x06, 0x00,";
"            0x00, 0x00, 0x14, 0x06, 0x06, 0x00, 0x00, 0x00, 0x02, 0x07, 0x06, 0x00, 0x00, 0x00,";
"            0x01,";
"        ];";
"";
"        let request_packet = Packet::decode(&request, &secret)?;";
"        assert_eq!(request_packet.get_code(), Code::AccessRequest);";
"        assert_eq!(request_packet.identifier, 1);";
"        assert_eq!(";
"            rfc2865::lookup_user_name(&request_packet).unwrap().unwrap(),";
"            ""flopsy""";
"        );";
"        assert_eq!(";
"            rfc2865::lookup_nas_ip_address(&request_packet)";
"                .unwrap()";
"                .unwrap(),";
"            Ipv4Addr::from([192, 168, 1, 16]),";
"        );";
"        assert_eq!(";
"            rfc2865::lookup_nas_port(&request_packet).unwrap().unwrap(),";
"            20";
"        );";
"        assert_eq!(";
"            rfc2865::lookup_service_type(&request_packet)";
"                .unwrap()";
"                .unwrap(),";
"            rfc2865::SERVICE_TYPE_FRAMED_USER,";
"        );";
"        assert_eq!(";
"            rfc2865::lookup_framed_protocol(&request_packet)";
"                .unwrap()";
"                .unwrap(),";
"            rfc2865::FRAMED_PROTOCOL_PPP,";
"        );";
"";
"        let response: Vec<u8> = vec![";
"            0x02, 0x01, 0x00, 0x38, 0x15, 0xef, 0xbc, 0x7d, 0xab, 0x26, 0xcf, 0xa3, 0xdc, 0x34,";
"            0xd9, 0xc0, 0x3c, 0x86, 0x01, 0xa4, 0x06, 0x06, 0x00, 0x00, 0x00, 0x02, 0x07, 0x06,";
"            0x00, 0x00, 0x00, 0x01, 0x08, 0x06, 0xff, 0xff, 0xff, 0xfe, 0x0a, 0x06, 0x00, 0x00,";
"            0x00, 0x00, 0x0d, 0x06, 0x00, 0x00, 0x00, 0x01, 0x0c, 0x06, 0x00, 0x00, 0x05,";
"            //    ^ incorrectly a 2 in the document";
"            0xdc,";
"        ];";
"        let response_packet = Packet::decode(&response, &secret).unwrap();";
"";
"        assert_eq!(response_packet.get_code(), Code::AccessAccept);";
"        assert_eq!(response_packet.get_identifier(), 1);";
"        assert_eq!(";
"            rfc2865::lookup_service_type(&response_packet)";
"                .unwrap()";
"                .unwrap(),";
"            rfc2865::SERVICE_TYPE_FRAMED_USER";
"        );";
"        assert_eq!(";
"            rfc2865::lookup_framed_protocol(&response_packet)";
"                .unwrap()";
"                .unwrap(),";
"            rfc2865::FRAMED_PROTOCOL_PPP,";
"        );";
"        assert_eq!(";
"            rfc2865::lookup_framed_ip_address(&response_packet)";
"                .unwrap()";
"                .unwrap(),";
"            Ipv4Addr::from([255, 255, 255, 254]),";
"        );";
"        assert_eq!(";
"            rfc2865::lookup_framed_routing(&response_packet)";
"                .unwrap()";
"                .unwrap(),";
"            rfc2865::FRAMED_ROUTING_NONE,";
"        );";
"        assert_eq!(";
"            rfc2865::lookup_framed_compression(&response_packet)";
"                .unwrap()";
"                .unwrap(),";
"            rfc2865::FRAMED_COMPRESSION_VAN_JACOBSON_TCP_IP,";
"        );";
"        assert_eq!(";
"            rfc2865::lookup_framed_mtu(&response_packet)";
"                .unwrap()";
"                .unwrap(),";
"            1500,";
"        );";
"";
"        Ok(())";
"    }";
"";
"    #[test]";
"    fn test_passwords() {";
"        let passwords = vec![";
"            b"""".to_vec(),";
"            b""qwerty"".to_vec(),";
"            b""helloworld1231231231231233489hegufudhsgdsfygdf8g"".to_vec(),";
"        ];";
"";
"        let secret = b""xyzzy5461"";";
"";
"        for password in passwords {";
"            let mut request_packet = Packet::new(Code::AccessRequest, secret);";
"            rfc2865::add_user_password(&mut request_packet, &password).unwrap();";
"";
"            let encoded = request_packet.encode().unwrap();";
"";
"            let decoded = Packet::decode(&encoded, secret).unwrap();";
"            assert_eq!(";
"                rfc2865::lookup_user_password(&decoded).unwrap().unwrap(),";
"                password";
"            );";
"        }";
"    }";
"";
"    #[test]";
"    fn test_parse_invalid() {";
"        struct TestCase<'a> {";
"            plain_text: &'a str,";
"            expected_error: PacketError,";
"        }";
"";
"        let test_cases = &[";
"            TestCase {";
"                plain_text: ""\x01"",";
"                expected_error: PacketError::InsufficientPacketPayloadLengthError(RADIUS_PACKET_HEADER_LENGTH, 1),";
"            },";
"            TestCase {";
"                plain_text: ""\x01\x7f\x00\x00\x01\x01\x01\x01\x01\x01\x01\x01\x01\x01\x01\x01\x01\x01\x01\x01"",";
"                expected_error: PacketError::InsufficientHeaderDefinedPacketLengthError(0, RADIUS_PACKET_HEADER_LENGTH),";
"            },";
"            TestCase {";
"                plain_text: ""\x01\x7f\x7f\x7f\x01\x01\x01\x01\x01\x01\x01\x01\x01\x01\x01\x01\x01\x01\x01\x01"",";
"                expected_error: PacketError::HeaderDefinedPacketLengthExceedsMaximumLimitError(32639, MAX_PACKET_LENGTH),";
"            },";
"            TestCase {";
"                plain_text: ""\x00\x7f\x00\x16\x01\x01\x01\x01\x01\x01\x01\x01\x01\x01\x01\x01\x01\x01\x01\x01\x00"",";
"                expected_error: PacketError::InsufficientPacketPayloadLengthError(22, 21),";
"            },";
"            TestCase {";
"                plain_text: ""\x01\x01\x00\x16\x01\x01\x01\x01\x01\x01\x01\x01\x01\x01\x01\x01\x01\x01\x01\x01\x01\x00"",";
"                expected_error: PacketError::DecodingError(""invalid attribute length"".to_owned()),";
"            }";
"        ];";
"";
"        let secret = b""12345"";";
"        for test_case in test_cases {";
"            let result = Packet::decode(test_case.plain_text.as_bytes(), secret);";
"            assert!(result.is_err());";
"            assert_eq!(result.err().unwrap(), test_case.expected_error);";
"        }";
"    }";
"";
"    #[test]";
"    fn test_packet_attribute_length_boundary() {";
"        let mut packet = Packet::new(Code::AccessRequest, b""12345"");";
"        packet.add(AVP {";
"            typ: 1,";
"            value: vec![1; 253],";
"        });";
"        let encoded = packet.encode();";
"        assert!(encoded.is_ok());";
"";
"        let mut packet = Packet::new(Code::AccessRequest, b""12345"");";
"        packet.add(AVP {";
"            typ: 1,";
"            value: vec![1; 254],";
"        });";
"        let encoded = packet.encode();";
"        assert!(encoded.is_err());";
"        assert_eq!(";
"            encoded.err().unwrap(),";
"            PacketError::EncodingError(""attribute is too large"".to_owned()),";
"        );";
"    }";
"";
"    #[test]";
"    fn test_with_arbitrary_identifier() {";
"        let mut packet = Packet::new(Code::AccessRequest, b""12345"");";
"        let random_ident = packet.get_identifier();";
"        let expected_ident = random_ident + 1;";
"        packet.set_identifier(expected_ident);";
"        assert_eq!(packet.get_identifier(), expected_ident);";
"";
"        packet = Packet::new_with_identifier(Code::AccessRequest, b""12345"", expected_ident);";
"        assert_eq!(packet.get_identifier(), expected_ident);";
"    }";
"}"].

(** radius/src/core/request.rs:1-32 *)
Definition source_request : list string := [
"use std::net::SocketAddr;";
"";
"use crate::core::packet::Packet;";
"";
"/// RADIUS request object.";
"pub struct Request {";
"    local_addr: SocketAddr,";
"    remote_addr: SocketAddr,";
"    packet: Packet,";
"}";
"";
"impl Request {";
"    pub fn new(local_addr: SocketAddr, remote_addr: SocketAddr, packet: Packet) -> Self {";
"        Self {";
"            local_addr,";
"            remote_addr,";
"            packet,";
"        }";
"    }";
"";
"    pub fn get_local_addr(&self) -> SocketAddr {";
"        self.local_addr";
"    }";
"";
"    pub fn get_remote_addr(&self) -> SocketAddr {";
"        self.remote_addr";
"    }";
"";
"    pub fn get_packet(&self) -> &Packet {";
"        &self.packet";
"    }";
"}"].
