(** * Independent specifications of the attribute container and accessor properties (C27-C30) *)
From Coq Require Import String List NArith ZArith Bool Strings.Byte.
From Verif Require Import Prelude Tag Avp Packet AvpSpec Vsa Accessors.
Import ListNotations.
Local Open Scope N_scope.

(** ** C27: histories of mutations of a packet *)
Inductive mutation :=
| MAdd (a : avp)
| MExtend (l : list avp)
| MDelete (t : byte)
| MSetIdentifier (id : byte).
Definition mutate (p : packet) (m : mutation) : packet :=
  match m with
  | MAdd a => packet_add p a
  | MExtend l => packet_extend p l
  | MDelete t => packet_delete p t
  | MSetIdentifier id => packet_set_identifier p id
  end.
Definition mutate_all (p : packet) (ms : list mutation) : packet := fold_left mutate ms p.
(** the AVPs put into the packet by a history, in order *)
Definition put (ms : list mutation) : list avp :=
  flat_map (fun m => match m with MAdd a => [a] | MExtend l => l | _ => [] end) ms.
(** those of a type *)
Inductive of_type (t : byte) : list avp -> list avp -> Prop :=
| ot_nil : of_type t [] []
| ot_yes a l l' : avp_typ a = t -> of_type t l l' -> of_type t (a :: l) (a :: l')
| ot_no a l l' : avp_typ a <> t -> of_type t l l' -> of_type t (a :: l) l'.

(** everything but the attributes *)
Definition same_header (p q : packet) : Prop :=
  p_code p = p_code q /\ p_identifier p = p_identifier q
  /\ p_authenticator p = p_authenticator q /\ p_secret p = p_secret q.

(** ** C28: the values an attribute can carry, and what is read back *)
Definition carries (k : kind) (p : packet) : kin k -> kout k -> Prop :=
  match k return kin k -> kout k -> Prop with
  | KString => fun v w => is_str v /\ w = v
  | KTaggedString => fun '(t, v) w => is_str v /\
      match t with
      | Some t => 1 <= b2n (tag_value t) <= 0x1f /\ w = (v, Some t)
      | None => (exists b rest, v = b :: rest /\ 0x1f < b2n b) /\ w = (v, None)
      end
  | KUserPassword => fun v w =>
      len v <= 128 /\ ~ In x00 v /\ p_secret p <> [] /\ len (p_authenticator p) = 16 /\ w = v
  | KTunnelPassword => fun '(_, _, t, v) w =>
      len v <= 240 /\ ~ In x00 v /\ p_secret p <> [] /\ len (p_authenticator p) = 16
      /\ w = (v, Tag (n2b (tag_octet t)))
  | KOctets => fun v w => w = v
  | KFixedOctets n => fun v w => len v = n /\ w = v
  | KIpaddr => fun v w => w = v
  | KIpv4Prefix => fun v w => len v = 4 /\ w = v
  | KIpv6addr => fun v w => w = v
  | KIpv6Prefix => fun v w => len v <= 16 /\ w = v
  | KDate => fun v w => (0 <= dt_timestamp v < 2 ^ 32)%Z /\ w = DateTime (dt_timestamp v) 0
  | KInteger | KValueInteger => fun v w => v < 2 ^ 32 /\ w = v
  | KTaggedInteger | KTaggedValueInteger => fun '(t, v) w =>
      v < 2 ^ 32 /\ tag_octet t <= 0x1f /\ w = (v, Tag (n2b (tag_octet t)))
  | KShort => fun v w => v < 2 ^ 16 /\ w = v
  | KConcatOctets | KVsa => fun _ _ => False
  end.

(** ** C30: the arguments [add_x] must accept *)
Definition acceptable (k : kind) (p : packet) : kin k -> Prop :=
  match k return kin k -> Prop with
  | KFixedOctets n => fun v => len v = n
  | KIpv4Prefix => fun v => len v = 4
  | KIpv6Prefix => fun v => len v <= 16
  | KUserPassword => fun v =>
      len v <= 128 /\ p_secret p <> [] /\ len (p_authenticator p) = 16
  | KTunnelPassword => fun _ => p_secret p <> [] /\ len (p_authenticator p) = 16
  | _ => fun _ => True
  end.

(** kinds whose values are hidden with the secret and the authenticator of the packet *)
Definition hidden_kind (k : kind) : bool :=
  match k with KUserPassword | KTunnelPassword => true | _ => false end.
