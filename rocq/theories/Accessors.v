(** * What the accessor functions of the rfc*.rs modules are made of

    The modules are written by code-generator/src/main.rs from one template per kind of
    attribute.  This file has the loops the templates share, the kinds, and the templates;
    Rfc.v has the functions of the modules themselves. *)
From Coq Require Import String List NArith ZArith Bool Strings.Byte.
From Verif Require Import Prelude Tag Avp Attributes Packet Vsa.
Import ListNotations.
Local Open Scope N_scope.
Local Open Scope list_scope.

(** [let mut vec = Vec::new(); for avp in … { vec.push(f(avp)?) } Ok(vec)], e.g. rfc2865.rs:172-176 *)
Fixpoint collect_loop {A} (f : avp -> res avp_error A) (avps : list avp) (vec : list A)
  : res avp_error (list A) :=
  match avps with
  | [] => Ok vec
  | a :: rest => do v <- f a; collect_loop f rest (vec ++ [v])
  end.
Definition collect {A} (f : avp -> res avp_error A) (avps : list avp) : res avp_error (list A) :=
  collect_loop f avps [].
(** the same loop without [?], e.g. rfc2865.rs:228-232 *)
Fixpoint collect_bytes_loop (avps : list avp) (vec : list bytes) : list bytes :=
  match avps with
  | [] => vec
  | a :: rest => collect_bytes_loop rest (vec ++ [avp_encode_bytes a])
  end.
Definition collect_bytes (avps : list avp) : list bytes := collect_bytes_loop avps [].

(** [packet.add(r?); Ok(())], e.g. rfc2865.rs:186-192: on [Err] the function returns before [add] *)
Definition try_add (p : packet) (r : res avp_error avp) : packet * res avp_error unit :=
  match r with
  | Ok a => (packet_add p a, Ok tt)
  | Err e => (p, Err e)
  | Panic => (p, Panic)
  | OutOfFuel => (p, OutOfFuel)
  end.

(** [Vec::is_empty] *)
Definition is_nil {A} (l : list A) : bool := match l with [] => true | _ => false end.

(** code-generator/src/main.rs:266-376: the code templates an attribute can be given *)
Inductive kind :=
| KString | KTaggedString | KUserPassword | KTunnelPassword | KOctets | KFixedOctets (n : N)
| KConcatOctets | KIpaddr | KIpv4Prefix | KIpv6addr | KIpv6Prefix | KDate | KInteger
| KTaggedInteger | KValueInteger | KTaggedValueInteger | KShort | KVsa.

(** the value arguments of [add_x]; a string is its UTF-8 octets, an integer a number, and the
    two octets of a tunnel password are what the random generator returns during the call *)
Definition kin (k : kind) : Type :=
  match k with
  | KString | KUserPassword | KOctets | KFixedOctets _ | KConcatOctets | KIpv4Prefix
  | KIpv6Prefix => bytes
  | KTaggedString => option tag * bytes
  | KTunnelPassword => byte * byte * option tag * bytes
  | KIpaddr => ipv4
  | KIpv6addr => ipv6
  | KDate => datetime
  | KInteger | KValueInteger | KShort => N
  | KTaggedInteger | KTaggedValueInteger => option tag * N
  | KVsa => vsa
  end.
(** the values [lookup_x] and [lookup_all_x] return *)
Definition kout (k : kind) : Type :=
  match k with
  | KString | KUserPassword | KOctets | KFixedOctets _ | KConcatOctets | KIpv4Prefix
  | KIpv6Prefix => bytes
  | KTaggedString => bytes * option tag
  | KTunnelPassword => bytes * tag
  | KIpaddr => ipv4
  | KIpv6addr => ipv6
  | KDate => datetime
  | KInteger | KValueInteger | KShort => N
  | KTaggedInteger | KTaggedValueInteger => N * tag
  | KVsa => Empty_set
  end.

(** An attribute of a module with its accessors.  [e_lookup] and [e_lookup_all] are [None] when
    the module has no such function.  The infallible [add_x] and the lookups of octets return
    their values without [Result]; the table wraps those in [Ok]. *)
Record entry := Entry {
  e_module : string;
  e_name : string;
  e_kind : kind;
  e_type : byte;
  e_delete : packet -> packet;
  e_add : packet -> kin e_kind -> packet * res avp_error unit;
  e_lookup : option (packet -> option (res avp_error (kout e_kind)));
  e_lookup_all : option (packet -> res avp_error (list (kout e_kind)))
}.

(** ** The templates

    Simplification: the templates that differ only in the conversion of the value are factored
    through [kind_avp] and [kind_value]; Rfc.v, which has every function spelled out, is
    compared with these templates in AccessorFacts.v. *)

(** the AVP a template makes of a value: main.rs:399-426 (string), 428-455 (tagged string),
    457-484 (user password), 486-513 (tunnel password), 515-541 (octets), 543-570 (concatenated
    octets, per chunk), 572-604 (fixed-length octets), 606-633 (ipaddr), 635-663 (ipv4prefix),
    665-692 (ipv6addr), 694-722 (ipv6prefix), 724-751 (date), 753-780 (integer), 782-809 (tagged
    integer), 811-839 (integer with values), 841-873 (tagged integer with values), 875-902 (short).
    [generate_vsa_attribute_code] (904-906) generates nothing: rfc2865.rs:361-364 is written by
    hand and is what [KVsa] stands for. *)
Definition kind_avp (k : kind) (typ : byte) (p : packet) : kin k -> res avp_error avp :=
  match k return kin k -> res avp_error avp with
  | KString => fun v => Ok (avp_from_string typ v)
  | KTaggedString => fun '(t, v) => Ok (avp_from_tagged_string typ t v)
  | KUserPassword => fun v =>
      avp_from_user_password typ v (packet_get_secret p) (packet_get_authenticator p)
  | KTunnelPassword => fun '(r0, r1, t, v) =>
      avp_from_tunnel_password r0 r1 typ t v (packet_get_secret p) (packet_get_authenticator p)
  | KOctets | KConcatOctets => fun v => Ok (avp_from_bytes typ v)
  | KFixedOctets n => fun v =>
      if negb (len v =? n) then
        Err (InvalidAttributeLengthError (dec n ++ " bytes")%string (len v))
      else Ok (avp_from_bytes typ v)
  | KIpaddr => fun v => Ok (avp_from_ipv4 typ v)
  | KIpv4Prefix => fun v => avp_from_ipv4_prefix typ v
  | KIpv6addr => fun v => Ok (avp_from_ipv6 typ v)
  | KIpv6Prefix => fun v => avp_from_ipv6_prefix typ v
  | KDate => fun v => Ok (avp_from_date typ v)
  | KInteger | KValueInteger => fun v => Ok (avp_from_u32 typ v)
  | KTaggedInteger | KTaggedValueInteger => fun '(t, v) => Ok (avp_from_tagged_u32 typ t v)
  | KShort => fun v => Ok (avp_from_u16 typ v)
  | KVsa => fun v => Ok (avp_from_bytes typ (vsa_message v))
  end.

(** the value a template makes of an AVP: the same functions of main.rs *)
Definition kind_value (k : kind) (p : packet) : avp -> res avp_error (kout k) :=
  match k return avp -> res avp_error (kout k) with
  | KString => avp_encode_string
  | KTaggedString => avp_encode_tagged_string
  | KUserPassword => fun a =>
      avp_encode_user_password a (packet_get_secret p) (packet_get_authenticator p)
  | KTunnelPassword => fun a =>
      avp_encode_tunnel_password a (packet_get_secret p) (packet_get_authenticator p)
  | KOctets | KFixedOctets _ | KConcatOctets => fun a => Ok (avp_encode_bytes a)
  | KIpaddr => avp_encode_ipv4
  | KIpv4Prefix => avp_encode_ipv4_prefix
  | KIpv6addr => avp_encode_ipv6
  | KIpv6Prefix => avp_encode_ipv6_prefix
  | KDate => avp_encode_date
  | KInteger | KValueInteger => avp_encode_u32
  | KTaggedInteger | KTaggedValueInteger => avp_encode_tagged_u32
  | KShort => avp_encode_u16
  | KVsa => fun _ => Panic
  end.

(** main.rs:378-397 *)
Definition template_delete (typ : byte) (p : packet) : packet := packet_delete p typ.
(** [add_x] of a kind; concatenated octets: main.rs:550-556 *)
Definition template_add (k : kind) (typ : byte) (p : packet) (v : kin k)
  : packet * res avp_error unit :=
  match k return kin k -> packet * res avp_error unit with
  | KConcatOctets => fun v => (packet_extend p (map (avp_from_bytes typ) (chunks 253 v)), Ok tt)
  | k => fun v => try_add p (kind_avp k typ p v)
  end v.
(** [lookup_x] of a kind; concatenated octets: main.rs:557-566 *)
Definition template_lookup (k : kind) (typ : byte)
  : option (packet -> option (res avp_error (kout k))) :=
  match k return option (packet -> option (res avp_error (kout k))) with
  | KConcatOctets => Some (fun p =>
      let avps := packet_lookup_all p typ in
      if is_nil avps then None
      else Some (Ok (fold_left (fun acc v => acc ++ avp_encode_bytes v) avps [])))
  | KVsa => None
  | k => Some (fun p => option_map (kind_value k p) (packet_lookup p typ))
  end.
(** [lookup_all_x] of a kind; there is none for concatenated octets *)
Definition template_lookup_all (k : kind) (typ : byte)
  : option (packet -> res avp_error (list (kout k))) :=
  match k return option (packet -> res avp_error (list (kout k))) with
  | KConcatOctets | KVsa => None
  | k => Some (fun p => collect (kind_value k p) (packet_lookup_all p typ))
  end.
