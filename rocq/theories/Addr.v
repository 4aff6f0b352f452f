(** * [std::net::SocketAddr] and its [to_string()], used by radius/src/server.rs:202 *)
From Coq Require Import String Ascii List NArith Bool Strings.Byte Hexadecimal HexadecimalString.
From Verif Require Import Prelude Avp.
Import ListNotations.
Local Open Scope N_scope.
Local Open Scope string_scope.

(** [SocketAddrV4 { ip, port: u16 }], [SocketAddrV6 { ip, port: u16, flowinfo: u32, scope_id: u32 }];
    simplification: the integer fields are unbounded here *)
Inductive socket_addr :=
| SockV4 (ip : ipv4) (port : N)
| SockV6 (ip : ipv6) (port flowinfo scope_id : N).

(** std: [Display for Ipv4Addr] *)
Definition ipv4_display (ip : ipv4) : string :=
  String.concat "." (map (fun b => dec (b2n b)) (ipv4_octets ip)).

(** [{:x}] *)
Definition hex (n : N) : string := NilZero.string_of_uint (N.to_hex_uint n).

(** std: [Ipv6Addr::segments] *)
Fixpoint segments_of (bs : bytes) : list N :=
  match bs with
  | hi :: lo :: rest => (256 * b2n hi + b2n lo) :: segments_of rest
  | _ => []
  end.
Definition ipv6_segments (ip : ipv6) : list N := segments_of (ipv6_octets ip).

(** std: [Ipv6Addr::to_ipv4_mapped] *)
Definition to_ipv4_mapped (ip : ipv6) : option ipv4 :=
  match ip with
  | Ipv6 x00 x00 x00 x00 x00 x00 x00 x00 x00 x00 xff xff a b c d => Some (Ipv4 a b c d)
  | _ => None
  end.

(** std: the loop looking for the longest (leftmost) run of zero segments; spans are
    (start, len) pairs *)
Fixpoint longest_zeroes (i : nat) (segs : list N) (current longest : nat * nat) : nat * nat :=
  match segs with
  | [] => longest
  | s :: segs' =>
      if (s =? 0)%N then
        let start := if Nat.eqb (snd current) 0 then i else fst current in
        let current := (start, S (snd current)) in
        let longest := if Nat.ltb (snd longest) (snd current) then current else longest in
        longest_zeroes (S i) segs' current longest
      else longest_zeroes (S i) segs' (O, O) longest
  end.

(** std: [fmt_subslice] *)
Definition fmt_subslice (segs : list N) : string := String.concat ":" (map hex segs).

(** std: [Display for Ipv6Addr] (as of Rust 1.50 and later; older releases also abbreviated
    IPv4-compatible addresses) *)
Definition ipv6_display (ip : ipv6) : string :=
  match to_ipv4_mapped ip with
  | Some v4 => "::ffff:" ++ ipv4_display v4
  | None =>
      let segs := ipv6_segments ip in
      let '(start, n) := longest_zeroes 0 segs (O, O) (O, O) in
      if Nat.ltb 1 n then
        fmt_subslice (firstn start segs) ++ "::" ++ fmt_subslice (skipn (start + n) segs)
      else fmt_subslice segs
  end.

(** std: [Display for SocketAddr] *)
Definition socket_addr_to_string (a : socket_addr) : string :=
  match a with
  | SockV4 ip port => ipv4_display ip ++ ":" ++ dec port
  | SockV6 ip port _ scope_id =>
      if (scope_id =? 0)%N then "[" ++ ipv6_display ip ++ "]:" ++ dec port
      else "[" ++ ipv6_display ip ++ "%" ++ dec scope_id ++ "]:" ++ dec port
  end.
