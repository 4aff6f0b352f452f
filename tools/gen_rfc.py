#!/usr/bin/env python3
"""Translates the accessor functions of /repo/radius/src/core/rfc*.rs into rocq/theories/Rfc.v.

Every function body is matched, after removing white space, against the shapes below; an
unknown shape is an error, so nothing is translated by guess.  The table at the end of the
output lists every attribute with its accessors."""
import re, glob, sys

SCALAR = {  # shape suffix of from_/encode_ : (coq in type, coq out type)
    'string': ('&str', 'String', 'bytes', 'bytes', 'KString'),
    'u32': ('u32', 'u32', 'N', 'N', 'KInteger'),
    'u16': ('u16', 'u16', 'N', 'N', 'KShort'),
    'ipv4': ('&Ipv4Addr', 'Ipv4Addr', 'ipv4', 'ipv4', 'KIpaddr'),
    'ipv6': ('&Ipv6Addr', 'Ipv6Addr', 'ipv6', 'ipv6', 'KIpv6addr'),
    'date': ('&DateTime<Utc>', 'DateTime<Utc>', 'datetime', 'datetime', 'KDate'),
}
PREFIX = {'ipv4_prefix': 'KIpv4Prefix', 'ipv6_prefix': 'KIpv6Prefix'}

def norm(s):
    s = re.sub(r'\s+', '', s)
    return s.replace(',)', ')').replace('mut', 'mut ')

def add_shape(b, T):
    """-> (kind, coq parameters, coq body, fallible)"""
    for suf, (rin, rout, cin, cout, k) in SCALAR.items():
        if b == f'(packet:&mut Packet,value:{rin}){{packet.add(AVP::from_{suf}({T},value));}}':
            return k, f'(value : {cin})', f'packet_add p (avp_from_{suf} {{T}} value)', False
    m = re.fullmatch(r'\(packet:&mut Packet,value:([A-Z]\w+)\)\{packet.add\(AVP::from_u32\(%s,value\)\);\}' % T, b)
    if m:
        return 'KValueInteger', '(value : N)', 'packet_add p (avp_from_u32 {T} value)', False
    if b == f'(packet:&mut Packet,value:&[u8]){{packet.add(AVP::from_bytes({T},value));}}':
        return 'KOctets', '(value : bytes)', 'packet_add p (avp_from_bytes {T} value)', False
    if b == f'(packet:&mut Packet,tag:Option<&Tag>,value:&str){{packet.add(AVP::from_tagged_string({T},tag,value));}}':
        return 'KTaggedString', '(t : option tag) (value : bytes)', 'packet_add p (avp_from_tagged_string {T} t value)', False
    m = re.fullmatch(r'\(packet:&mut Packet,tag:Option<&Tag>,value:(\w+)\)\{packet.add\(AVP::from_tagged_u32\(%s,tag,value\)\);\}' % T, b)
    if m:
        return ('KTaggedInteger' if m.group(1) == 'u32' else 'KTaggedValueInteger'), '(t : option tag) (value : N)', \
            'packet_add p (avp_from_tagged_u32 {T} t value)', False
    for suf, k in PREFIX.items():
        if b == f'(packet:&mut Packet,value:&[u8])->Result<(),AVPError>{{packet.add(AVP::from_{suf}({T},value)?);Ok(())}}':
            return k, '(value : bytes)', f'try_add p (avp_from_{suf} {{T}} value)', True
    m = re.fullmatch(r'\(packet:&mut Packet,value:&\[u8\]\)->Result<\(\),AVPError>\{ifvalue.len\(\)!=(\d+)\{returnErr\(AVPError::InvalidAttributeLengthError\("(\d+)bytes".to_owned\(\),value.len\(\)\)\);\}packet.add\(AVP::from_bytes\(%s,value\)\);Ok\(\(\)\)\}' % T, b)
    if m and m.group(1) == m.group(2):
        n = m.group(1)
        return f'(KFixedOctets {n})', '(value : bytes)', \
            f'if negb (len value =? {n}) then (p, Err (InvalidAttributeLengthError "{n} bytes" (len value)))\n  else (packet_add p (avp_from_bytes {{T}} value), Ok tt)', True
    if b == f'(packet:&mut Packet,value:&[u8]){{packet.extend(value.chunks(253).map(|chunk|AVP::from_bytes({T},chunk)).collect());}}':
        return 'KConcatOctets', '(value : bytes)', 'packet_extend p (map (fun chunk => avp_from_bytes {T} chunk) (chunks 253 value))', False
    if b == f'(packet:&mut Packet,value:&[u8])->Result<(),AVPError>{{packet.add(AVP::from_user_password({T},value,packet.get_secret(),packet.get_authenticator())?);Ok(())}}':
        return 'KUserPassword', '(value : bytes)', \
            'try_add p (avp_from_user_password {T} value (packet_get_secret p) (packet_get_authenticator p))', True
    if b == f'(packet:&mut Packet,tag:Option<&Tag>,value:&[u8])->Result<(),AVPError>{{packet.add(AVP::from_tunnel_password({T},tag,value,packet.get_secret(),packet.get_authenticator())?);Ok(())}}':
        return 'KTunnelPassword', '(r0 r1 : byte) (t : option tag) (value : bytes)', \
            'try_add p\n    (avp_from_tunnel_password r0 r1 {T} t value (packet_get_secret p) (packet_get_authenticator p))', True
    raise SystemExit('add shape: ' + b)

def lookup_shape(b, T):
    """-> (coq return type, coq body, octets?)"""
    L = f'packet.lookup({T})'
    for suf, (rin, rout, cin, cout, k) in list(SCALAR.items()):
        if b == f'(packet:&Packet)->Option<Result<{rout},AVPError>>{{{L}.map(|v|v.encode_{suf}())}}':
            return k, f'option (res avp_error {cout})', f'option_map avp_encode_{suf} (packet_lookup p {{T}})'
    m = re.fullmatch(r'\(packet:&Packet\)->Option<Result<(\w+),AVPError>>\{packet.lookup\(%s\).map\(\|v\|Ok\(v.encode_u32\(\)\?as(\w+)\)\)\}' % T, b)
    if m and m.group(1) == m.group(2):
        return 'KValueInteger', 'option (res avp_error N)', 'option_map (fun v => do n <- avp_encode_u32 v; Ok n) (packet_lookup p {T})'
    if b == f'(packet:&Packet)->Option<Vec<u8>>{{{L}.map(|v|v.encode_bytes())}}':
        return 'KOctets', 'option bytes', 'option_map avp_encode_bytes (packet_lookup p {T})'
    if b == f'(packet:&Packet)->Option<Result<(String,Option<Tag>),AVPError>>{{{L}.map(|v|v.encode_tagged_string())}}':
        return 'KTaggedString', 'option (res avp_error (bytes * option tag))', 'option_map avp_encode_tagged_string (packet_lookup p {T})'
    if b == f'(packet:&Packet)->Option<Result<(u32,Tag),AVPError>>{{{L}.map(|v|v.encode_tagged_u32())}}':
        return 'KTaggedInteger', 'option (res avp_error (N * tag))', 'option_map avp_encode_tagged_u32 (packet_lookup p {T})'
    m = re.fullmatch(r'\(packet:&Packet\)->Option<Result<\((\w+),Tag\),AVPError>>\{packet.lookup\(%s\).map\(\|v\|\{let\(v,t\)=v.encode_tagged_u32\(\)\?;Ok\(\(vas(\w+),t\)\)\}\)\}' % T, b)
    if m and m.group(1) == m.group(2):
        return 'KTaggedValueInteger', 'option (res avp_error (N * tag))', \
            'option_map (fun v => do vt <- avp_encode_tagged_u32 v; let (v, t) := vt in Ok (v, t)) (packet_lookup p {T})'
    for suf, k in PREFIX.items():
        if b == f'(packet:&Packet)->Option<Result<Vec<u8>,AVPError>>{{{L}.map(|v|v.encode_{suf}())}}':
            return k, 'option (res avp_error bytes)', f'option_map avp_encode_{suf} (packet_lookup p {{T}})'
    if b == f'(packet:&Packet)->Option<Vec<u8>>{{letavps=packet.lookup_all({T});matchavps.is_empty(){{true=>None,false=>Some(avps.into_iter().fold(Vec::new(),|mut acc,v|{{acc.extend(v.encode_bytes());acc}})),}}}}':
        return 'KConcatOctets', 'option bytes', \
            'let avps := packet_lookup_all p {T} in\n  if is_nil avps then None\n  else Some (fold_left (fun acc v => acc ++ avp_encode_bytes v) avps [])'
    if b == f'(packet:&Packet)->Option<Result<Vec<u8>,AVPError>>{{{L}.map(|v|v.encode_user_password(packet.get_secret(),packet.get_authenticator()))}}':
        return 'KUserPassword', 'option (res avp_error bytes)', \
            'option_map (fun v => avp_encode_user_password v (packet_get_secret p) (packet_get_authenticator p))\n    (packet_lookup p {T})'
    if b == f'(packet:&Packet)->Option<Result<(Vec<u8>,Tag),AVPError>>{{{L}.map(|v|v.encode_tunnel_password(packet.get_secret(),packet.get_authenticator()))}}':
        return 'KTunnelPassword', 'option (res avp_error (bytes * tag))', \
            'option_map (fun v => avp_encode_tunnel_password v (packet_get_secret p) (packet_get_authenticator p))\n    (packet_lookup p {T})'
    raise SystemExit('lookup shape: ' + b)

def all_shape(b, T):
    def loop(ret, push): return f'(packet:&Packet)->{ret}{{letmut vec=Vec::new();foravpinpacket.lookup_all({T}){{{push}}}'
    def r(t, push): return loop(f'Result<Vec<{t}>,AVPError>', push) + 'Ok(vec)}'
    for suf, (rin, rout, cin, cout, k) in SCALAR.items():
        if b == r(rout, f'vec.push(avp.encode_{suf}()?)'):
            return k, f'res avp_error (list {cout})', f'collect avp_encode_{suf} (packet_lookup_all p {{T}})'
    m = re.search(r'encode_u32\(\)\?as(\w+)\)', b)
    if m and b == r(m.group(1), f'vec.push(avp.encode_u32()?as{m.group(1)})'):
        return 'KValueInteger', 'res avp_error (list N)', 'collect (fun v => do n <- avp_encode_u32 v; Ok n) (packet_lookup_all p {T})'
    if b == loop('Vec<Vec<u8>>', 'vec.push(avp.encode_bytes())') + 'vec}':
        return 'KOctets', 'list bytes', 'collect_bytes (packet_lookup_all p {T})'
    if b == r('(String,Option<Tag>)', 'vec.push(avp.encode_tagged_string()?)'):
        return 'KTaggedString', 'res avp_error (list (bytes * option tag))', 'collect avp_encode_tagged_string (packet_lookup_all p {T})'
    if b == r('(u32,Tag)', 'vec.push(avp.encode_tagged_u32()?)'):
        return 'KTaggedInteger', 'res avp_error (list (N * tag))', 'collect avp_encode_tagged_u32 (packet_lookup_all p {T})'
    m = re.search(r'vec.push\(\(vas(\w+),t\)\)', b)
    if m and b == r(f'({m.group(1)},Tag)', f'let(v,t)=avp.encode_tagged_u32()?;vec.push((vas{m.group(1)},t))'):
        return 'KTaggedValueInteger', 'res avp_error (list (N * tag))', \
            'collect (fun v => do vt <- avp_encode_tagged_u32 v; let (v, t) := vt in Ok (v, t)) (packet_lookup_all p {T})'
    for suf, k in PREFIX.items():
        if b == r('Vec<u8>', f'vec.push(avp.encode_{suf}()?)'):
            return k, 'res avp_error (list bytes)', f'collect avp_encode_{suf} (packet_lookup_all p {{T}})'
    if b == r('Vec<u8>', 'vec.push(avp.encode_user_password(packet.get_secret(),packet.get_authenticator())?)'):
        return 'KUserPassword', 'res avp_error (list bytes)', \
            'collect (fun v => avp_encode_user_password v (packet_get_secret p) (packet_get_authenticator p))\n    (packet_lookup_all p {T})'
    if b == r('(Vec<u8>,Tag)', 'vec.push(avp.encode_tunnel_password(packet.get_secret(),packet.get_authenticator())?)'):
        return 'KTunnelPassword', 'res avp_error (list (bytes * tag))', \
            'collect (fun v => avp_encode_tunnel_password v (packet_get_secret p) (packet_get_authenticator p))\n    (packet_lookup_all p {T})'
    raise SystemExit('lookup_all shape: ' + b)

out = []
table = []
values = []
types = []
nfun = 0
for f in sorted(glob.glob('/repo/radius/src/core/rfc*.rs')):
    src = open(f).read()
    mod = f.split('/')[-1][:-3]
    out.append(f'(** ** radius/src/core/{mod}.rs *)')
    fns = {}
    for m in re.finditer(r'^pub fn (\w+)(\(.*?\n\}\n)', src, re.S | re.M):
        line = src[:m.start()].count('\n') + 1
        end = src[:m.end()].count('\n')
        fns[m.group(1)] = (norm(m.group(2)), line, end)
    nfun += len(fns)
    used = set()
    assert src.count('\npub fn ') == len(fns)
    for m in re.finditer(r'^pub const (\w+)_TYPE: AVPType = (\d+);', src, re.M):
        cline = src[:m.start()].count('\n') + 1
        ident = m.group(1).lower()
        T = m.group(1) + '_TYPE'
        CT = f'{mod}_{T}'
        out.append(f'(** {mod}.rs:{cline} *)\nDefinition {CT} : byte := n2b {m.group(2)}.')
        b, l, e = fns['delete_' + ident]; used.add('delete_' + ident)
        assert b == f'(packet:&mut Packet){{packet.delete({T});}}', b
        out.append(f'(** {mod}.rs:{l}-{e} *)\nDefinition {mod}_delete_{ident} (p : packet) : packet := packet_delete p {CT}.')
        if T == 'VENDOR_SPECIFIC_TYPE':
            b, l, e = fns['add_vsa_attribute']; used.add('add_vsa_attribute')
            assert b == '(packet:&mut Packet,value:&dynVSA){packet.add(AVP::from_bytes(VENDOR_SPECIFIC_TYPE,&value.message()));}', b
            out.append(f'(** {mod}.rs:{l}-{e} *)\nDefinition {mod}_add_vsa_attribute (p : packet) (value : vsa) : packet :=\n  packet_add p (avp_from_bytes {CT} (vsa_message value)).')
            table.append(f'  (* {mod}.rs:{cline}-{cline+4}, {l}-{e} *)\n  Entry "{mod}" "{ident}" KVsa {CT} {mod}_delete_{ident}\n    (fun p v => ({mod}_add_vsa_attribute p v, Ok tt)) None None')
            continue
        b, l, e = fns['add_' + ident]; used.add('add_' + ident)
        k, params, body, fallible = add_shape(b, T)
        rt = 'packet * res avp_error unit' if fallible else 'packet'
        out.append(f'(** {mod}.rs:{l}-{e} *)\nDefinition {mod}_add_{ident} (p : packet) {params} : {rt} :=\n  {body.format(T=CT)}.')
        b, l, e = fns['lookup_' + ident]; used.add('lookup_' + ident)
        k2, rt, body = lookup_shape(b, T)
        assert k2 == k or (k2 == 'KOctets' and k.startswith('(KFixed')), (k, k2)
        out.append(f'(** {mod}.rs:{l}-{e} *)\nDefinition {mod}_lookup_{ident} (p : packet) : {rt} :=\n  {body.format(T=CT)}.')
        octets = k2 in ('KOctets', 'KConcatOctets')
        if k != 'KConcatOctets':
            b, l, e = fns['lookup_all_' + ident]; used.add('lookup_all_' + ident)
            k3, rt, body = all_shape(b, T)
            assert k3 == k2
            out.append(f'(** {mod}.rs:{l}-{e} *)\nDefinition {mod}_lookup_all_{ident} (p : packet) : {rt} :=\n  {body.format(T=CT)}.')
            la = f'{mod}_lookup_all_{ident}'
            la = f'(Some (fun p => Ok ({la} p)))' if octets else f'(Some {la})'
        else:
            la = 'None'
        add = f'{mod}_add_{ident}'
        if k in ('KTaggedString', 'KTaggedInteger', 'KTaggedValueInteger'):
            add = f"(fun p '(t, v) => ({add} p t v, Ok tt))"
        elif k == 'KTunnelPassword':
            add = f"(fun p '(r0, r1, t, v) => {add} p r0 r1 t v)"
        elif not fallible:
            add = f'(fun p v => ({add} p v, Ok tt))'
        lk = f'{mod}_lookup_{ident}'
        lk = f'(Some (fun p => option_map Ok ({lk} p)))' if octets else f'(Some {lk})'
        table.append(f'  (* {mod}.rs:{cline}-{e} *)\n  Entry "{mod}" "{ident}" {k} {CT} {mod}_delete_{ident}\n    {add}\n    {lk}\n    {la}')
    assert used == set(fns), set(fns) - used
    for m in re.finditer(r'^pub type (\w+) = u32;', src, re.M):
        types.append((mod, m.group(1), src[:m.start()].count('\n') + 1))
    for m in re.finditer(r'^pub const (\w+):\s+(?:(\w+)::)?(\w+) = (\d+);', src, re.M):
        if m.group(3) == 'AVPType': continue
        values.append((mod, m.group(1), m.group(2) or '', m.group(3), m.group(4), src[:m.start()].count('\n') + 1))
    assert len(re.findall(r'^pub ', src, re.M)) == len(fns) + len(re.findall(r'^pub const', src, re.M)) + len(re.findall(r'^pub type', src, re.M))

    assert len(re.findall(r'^pub const', src, re.M)) == len([v for v in values if v[0] == mod]) + len(re.findall(r'^pub const (\w+)_TYPE: AVPType', src, re.M)), mod

hdr = '''(** * radius/src/core/rfc*.rs: the accessors of all dictionary attributes

    Written by tools/gen_rfc.py from the Rust text: one definition per Rust function, with the
    lines it comes from.  Conventions: [&mut Packet] is state passing; a function that returns
    [Result<(), AVPError>] gives the packet after the call and the result. *)
From Coq Require Import String List NArith ZArith Bool Strings.Byte.
From Verif Require Import Prelude Tag Avp Attributes Packet Vsa Accessors.
Import ListNotations.
Local Open Scope N_scope.
Local Open Scope list_scope.

'''
s = hdr + '\n'.join(out) + '\n\n(** ** The table of all attributes *)\nLocal Open Scope string_scope.\nLocal Open Scope list_scope.\nDefinition entries : list entry := [\n' + ';\n'.join(table) + '\n].\n'
s += '\n(** ** The enumerated value types: [pub type T = u32;] *)\nDefinition value_types : list (string * string) := [\n' + ';\n'.join(f'  (* {m}.rs:{l} *) ("{m}", "{t}")' for m, t, l in types) + '\n].\n'
s += '\n(** ** The enumerated values: module, constant, module qualifier of its type, type, value *)\nDefinition values : list (string * string * string * string * N) := [\n' + ';\n'.join(f'  (* {m}.rs:{l} *) ("{m}", "{c}", "{q}", "{t}", {v})' for m, c, q, t, v, l in values) + '\n].\n'
open('/verif/rocq/theories/Rfc.v', 'w').write(s)
print(len(table), nfun, len(types), len(values))
