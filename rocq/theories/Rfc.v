(** * radius/src/core/rfc*.rs: the accessors of all dictionary attributes

    Written by tools/gen_rfc.py from the Rust text: one definition per Rust function, with the
    lines it comes from.  Conventions: [&mut Packet] is state passing; a function that returns
    [Result<(), AVPError>] gives the packet after the call and the result. *)
From Coq Require Import String List NArith ZArith Bool Strings.Byte.
From Verif Require Import Prelude Tag Avp Attributes Packet Vsa Accessors.
Import ListNotations.
Local Open Scope N_scope.
Local Open Scope list_scope.

(** ** radius/src/core/rfc2865.rs *)
(** rfc2865.rs:155 *)
Definition rfc2865_USER_NAME_TYPE : byte := n2b 1.
(** rfc2865.rs:157-159 *)
Definition rfc2865_delete_user_name (p : packet) : packet := packet_delete p rfc2865_USER_NAME_TYPE.
(** rfc2865.rs:161-163 *)
Definition rfc2865_add_user_name (p : packet) (value : bytes) : packet :=
  packet_add p (avp_from_string rfc2865_USER_NAME_TYPE value).
(** rfc2865.rs:167-169 *)
Definition rfc2865_lookup_user_name (p : packet) : option (res avp_error bytes) :=
  option_map avp_encode_string (packet_lookup p rfc2865_USER_NAME_TYPE).
(** rfc2865.rs:171-177 *)
Definition rfc2865_lookup_all_user_name (p : packet) : res avp_error (list bytes) :=
  collect avp_encode_string (packet_lookup_all p rfc2865_USER_NAME_TYPE).
(** rfc2865.rs:179 *)
Definition rfc2865_USER_PASSWORD_TYPE : byte := n2b 2.
(** rfc2865.rs:181-183 *)
Definition rfc2865_delete_user_password (p : packet) : packet := packet_delete p rfc2865_USER_PASSWORD_TYPE.
(** rfc2865.rs:185-193 *)
Definition rfc2865_add_user_password (p : packet) (value : bytes) : packet * res avp_error unit :=
  try_add p (avp_from_user_password rfc2865_USER_PASSWORD_TYPE value (packet_get_secret p) (packet_get_authenticator p)).
(** rfc2865.rs:197-201 *)
Definition rfc2865_lookup_user_password (p : packet) : option (res avp_error bytes) :=
  option_map (fun v => avp_encode_user_password v (packet_get_secret p) (packet_get_authenticator p))
    (packet_lookup p rfc2865_USER_PASSWORD_TYPE).
(** rfc2865.rs:203-209 *)
Definition rfc2865_lookup_all_user_password (p : packet) : res avp_error (list bytes) :=
  collect (fun v => avp_encode_user_password v (packet_get_secret p) (packet_get_authenticator p))
    (packet_lookup_all p rfc2865_USER_PASSWORD_TYPE).
(** rfc2865.rs:211 *)
Definition rfc2865_CHAP_PASSWORD_TYPE : byte := n2b 3.
(** rfc2865.rs:213-215 *)
Definition rfc2865_delete_chap_password (p : packet) : packet := packet_delete p rfc2865_CHAP_PASSWORD_TYPE.
(** rfc2865.rs:217-219 *)
Definition rfc2865_add_chap_password (p : packet) (value : bytes) : packet :=
  packet_add p (avp_from_bytes rfc2865_CHAP_PASSWORD_TYPE value).
(** rfc2865.rs:223-225 *)
Definition rfc2865_lookup_chap_password (p : packet) : option bytes :=
  option_map avp_encode_bytes (packet_lookup p rfc2865_CHAP_PASSWORD_TYPE).
(** rfc2865.rs:227-233 *)
Definition rfc2865_lookup_all_chap_password (p : packet) : list bytes :=
  collect_bytes (packet_lookup_all p rfc2865_CHAP_PASSWORD_TYPE).
(** rfc2865.rs:235 *)
Definition rfc2865_NAS_IP_ADDRESS_TYPE : byte := n2b 4.
(** rfc2865.rs:237-239 *)
Definition rfc2865_delete_nas_ip_address (p : packet) : packet := packet_delete p rfc2865_NAS_IP_ADDRESS_TYPE.
(** rfc2865.rs:241-243 *)
Definition rfc2865_add_nas_ip_address (p : packet) (value : ipv4) : packet :=
  packet_add p (avp_from_ipv4 rfc2865_NAS_IP_ADDRESS_TYPE value).
(** rfc2865.rs:247-249 *)
Definition rfc2865_lookup_nas_ip_address (p : packet) : option (res avp_error ipv4) :=
  option_map avp_encode_ipv4 (packet_lookup p rfc2865_NAS_IP_ADDRESS_TYPE).
(** rfc2865.rs:251-257 *)
Definition rfc2865_lookup_all_nas_ip_address (p : packet) : res avp_error (list ipv4) :=
  collect avp_encode_ipv4 (packet_lookup_all p rfc2865_NAS_IP_ADDRESS_TYPE).
(** rfc2865.rs:259 *)
Definition rfc2865_NAS_PORT_TYPE : byte := n2b 5.
(** rfc2865.rs:261-263 *)
Definition rfc2865_delete_nas_port (p : packet) : packet := packet_delete p rfc2865_NAS_PORT_TYPE.
(** rfc2865.rs:265-267 *)
Definition rfc2865_add_nas_port (p : packet) (value : N) : packet :=
  packet_add p (avp_from_u32 rfc2865_NAS_PORT_TYPE value).
(** rfc2865.rs:271-273 *)
Definition rfc2865_lookup_nas_port (p : packet) : option (res avp_error N) :=
  option_map avp_encode_u32 (packet_lookup p rfc2865_NAS_PORT_TYPE).
(** rfc2865.rs:275-281 *)
Definition rfc2865_lookup_all_nas_port (p : packet) : res avp_error (list N) :=
  collect avp_encode_u32 (packet_lookup_all p rfc2865_NAS_PORT_TYPE).
(** rfc2865.rs:283 *)
Definition rfc2865_SERVICE_TYPE_TYPE : byte := n2b 6.
(** rfc2865.rs:285-287 *)
Definition rfc2865_delete_service_type (p : packet) : packet := packet_delete p rfc2865_SERVICE_TYPE_TYPE.
(** rfc2865.rs:289-291 *)
Definition rfc2865_add_service_type (p : packet) (value : N) : packet :=
  packet_add p (avp_from_u32 rfc2865_SERVICE_TYPE_TYPE value).
(** rfc2865.rs:295-299 *)
Definition rfc2865_lookup_service_type (p : packet) : option (res avp_error N) :=
  option_map (fun v => do n <- avp_encode_u32 v; Ok n) (packet_lookup p rfc2865_SERVICE_TYPE_TYPE).
(** rfc2865.rs:301-307 *)
Definition rfc2865_lookup_all_service_type (p : packet) : res avp_error (list N) :=
  collect (fun v => do n <- avp_encode_u32 v; Ok n) (packet_lookup_all p rfc2865_SERVICE_TYPE_TYPE).
(** rfc2865.rs:309 *)
Definition rfc2865_FRAMED_PROTOCOL_TYPE : byte := n2b 7.
(** rfc2865.rs:311-313 *)
Definition rfc2865_delete_framed_protocol (p : packet) : packet := packet_delete p rfc2865_FRAMED_PROTOCOL_TYPE.
(** rfc2865.rs:315-317 *)
Definition rfc2865_add_framed_protocol (p : packet) (value : N) : packet :=
  packet_add p (avp_from_u32 rfc2865_FRAMED_PROTOCOL_TYPE value).
(** rfc2865.rs:321-325 *)
Definition rfc2865_lookup_framed_protocol (p : packet) : option (res avp_error N) :=
  option_map (fun v => do n <- avp_encode_u32 v; Ok n) (packet_lookup p rfc2865_FRAMED_PROTOCOL_TYPE).
(** rfc2865.rs:327-333 *)
Definition rfc2865_lookup_all_framed_protocol (p : packet) : res avp_error (list N) :=
  collect (fun v => do n <- avp_encode_u32 v; Ok n) (packet_lookup_all p rfc2865_FRAMED_PROTOCOL_TYPE).
(** rfc2865.rs:335 *)
Definition rfc2865_FRAMED_IP_ADDRESS_TYPE : byte := n2b 8.
(** rfc2865.rs:337-339 *)
Definition rfc2865_delete_framed_ip_address (p : packet) : packet := packet_delete p rfc2865_FRAMED_IP_ADDRESS_TYPE.
(** rfc2865.rs:341-343 *)
Definition rfc2865_add_framed_ip_address (p : packet) (value : ipv4) : packet :=
  packet_add p (avp_from_ipv4 rfc2865_FRAMED_IP_ADDRESS_TYPE value).
(** rfc2865.rs:347-351 *)
Definition rfc2865_lookup_framed_ip_address (p : packet) : option (res avp_error ipv4) :=
  option_map avp_encode_ipv4 (packet_lookup p rfc2865_FRAMED_IP_ADDRESS_TYPE).
(** rfc2865.rs:353-359 *)
Definition rfc2865_lookup_all_framed_ip_address (p : packet) : res avp_error (list ipv4) :=
  collect avp_encode_ipv4 (packet_lookup_all p rfc2865_FRAMED_IP_ADDRESS_TYPE).
(** rfc2865.rs:366 *)
Definition rfc2865_FRAMED_IP_NETMASK_TYPE : byte := n2b 9.
(** rfc2865.rs:368-370 *)
Definition rfc2865_delete_framed_ip_netmask (p : packet) : packet := packet_delete p rfc2865_FRAMED_IP_NETMASK_TYPE.
(** rfc2865.rs:372-374 *)
Definition rfc2865_add_framed_ip_netmask (p : packet) (value : ipv4) : packet :=
  packet_add p (avp_from_ipv4 rfc2865_FRAMED_IP_NETMASK_TYPE value).
(** rfc2865.rs:378-382 *)
Definition rfc2865_lookup_framed_ip_netmask (p : packet) : option (res avp_error ipv4) :=
  option_map avp_encode_ipv4 (packet_lookup p rfc2865_FRAMED_IP_NETMASK_TYPE).
(** rfc2865.rs:384-390 *)
Definition rfc2865_lookup_all_framed_ip_netmask (p : packet) : res avp_error (list ipv4) :=
  collect avp_encode_ipv4 (packet_lookup_all p rfc2865_FRAMED_IP_NETMASK_TYPE).
(** rfc2865.rs:392 *)
Definition rfc2865_FRAMED_ROUTING_TYPE : byte := n2b 10.
(** rfc2865.rs:394-396 *)
Definition rfc2865_delete_framed_routing (p : packet) : packet := packet_delete p rfc2865_FRAMED_ROUTING_TYPE.
(** rfc2865.rs:398-400 *)
Definition rfc2865_add_framed_routing (p : packet) (value : N) : packet :=
  packet_add p (avp_from_u32 rfc2865_FRAMED_ROUTING_TYPE value).
(** rfc2865.rs:404-408 *)
Definition rfc2865_lookup_framed_routing (p : packet) : option (res avp_error N) :=
  option_map (fun v => do n <- avp_encode_u32 v; Ok n) (packet_lookup p rfc2865_FRAMED_ROUTING_TYPE).
(** rfc2865.rs:410-416 *)
Definition rfc2865_lookup_all_framed_routing (p : packet) : res avp_error (list N) :=
  collect (fun v => do n <- avp_encode_u32 v; Ok n) (packet_lookup_all p rfc2865_FRAMED_ROUTING_TYPE).
(** rfc2865.rs:418 *)
Definition rfc2865_FILTER_ID_TYPE : byte := n2b 11.
(** rfc2865.rs:420-422 *)
Definition rfc2865_delete_filter_id (p : packet) : packet := packet_delete p rfc2865_FILTER_ID_TYPE.
(** rfc2865.rs:424-426 *)
Definition rfc2865_add_filter_id (p : packet) (value : bytes) : packet :=
  packet_add p (avp_from_string rfc2865_FILTER_ID_TYPE value).
(** rfc2865.rs:430-432 *)
Definition rfc2865_lookup_filter_id (p : packet) : option (res avp_error bytes) :=
  option_map avp_encode_string (packet_lookup p rfc2865_FILTER_ID_TYPE).
(** rfc2865.rs:434-440 *)
Definition rfc2865_lookup_all_filter_id (p : packet) : res avp_error (list bytes) :=
  collect avp_encode_string (packet_lookup_all p rfc2865_FILTER_ID_TYPE).
(** rfc2865.rs:442 *)
Definition rfc2865_FRAMED_MTU_TYPE : byte := n2b 12.
(** rfc2865.rs:444-446 *)
Definition rfc2865_delete_framed_mtu (p : packet) : packet := packet_delete p rfc2865_FRAMED_MTU_TYPE.
(** rfc2865.rs:448-450 *)
Definition rfc2865_add_framed_mtu (p : packet) (value : N) : packet :=
  packet_add p (avp_from_u32 rfc2865_FRAMED_MTU_TYPE value).
(** rfc2865.rs:454-456 *)
Definition rfc2865_lookup_framed_mtu (p : packet) : option (res avp_error N) :=
  option_map avp_encode_u32 (packet_lookup p rfc2865_FRAMED_MTU_TYPE).
(** rfc2865.rs:458-464 *)
Definition rfc2865_lookup_all_framed_mtu (p : packet) : res avp_error (list N) :=
  collect avp_encode_u32 (packet_lookup_all p rfc2865_FRAMED_MTU_TYPE).
(** rfc2865.rs:466 *)
Definition rfc2865_FRAMED_COMPRESSION_TYPE : byte := n2b 13.
(** rfc2865.rs:468-470 *)
Definition rfc2865_delete_framed_compression (p : packet) : packet := packet_delete p rfc2865_FRAMED_COMPRESSION_TYPE.
(** rfc2865.rs:472-474 *)
Definition rfc2865_add_framed_compression (p : packet) (value : N) : packet :=
  packet_add p (avp_from_u32 rfc2865_FRAMED_COMPRESSION_TYPE value).
(** rfc2865.rs:478-482 *)
Definition rfc2865_lookup_framed_compression (p : packet) : option (res avp_error N) :=
  option_map (fun v => do n <- avp_encode_u32 v; Ok n) (packet_lookup p rfc2865_FRAMED_COMPRESSION_TYPE).
(** rfc2865.rs:484-490 *)
Definition rfc2865_lookup_all_framed_compression (p : packet) : res avp_error (list N) :=
  collect (fun v => do n <- avp_encode_u32 v; Ok n) (packet_lookup_all p rfc2865_FRAMED_COMPRESSION_TYPE).
(** rfc2865.rs:492 *)
Definition rfc2865_LOGIN_IP_HOST_TYPE : byte := n2b 14.
(** rfc2865.rs:494-496 *)
Definition rfc2865_delete_login_ip_host (p : packet) : packet := packet_delete p rfc2865_LOGIN_IP_HOST_TYPE.
(** rfc2865.rs:498-500 *)
Definition rfc2865_add_login_ip_host (p : packet) (value : ipv4) : packet :=
  packet_add p (avp_from_ipv4 rfc2865_LOGIN_IP_HOST_TYPE value).
(** rfc2865.rs:504-506 *)
Definition rfc2865_lookup_login_ip_host (p : packet) : option (res avp_error ipv4) :=
  option_map avp_encode_ipv4 (packet_lookup p rfc2865_LOGIN_IP_HOST_TYPE).
(** rfc2865.rs:508-514 *)
Definition rfc2865_lookup_all_login_ip_host (p : packet) : res avp_error (list ipv4) :=
  collect avp_encode_ipv4 (packet_lookup_all p rfc2865_LOGIN_IP_HOST_TYPE).
(** rfc2865.rs:516 *)
Definition rfc2865_LOGIN_SERVICE_TYPE : byte := n2b 15.
(** rfc2865.rs:518-520 *)
Definition rfc2865_delete_login_service (p : packet) : packet := packet_delete p rfc2865_LOGIN_SERVICE_TYPE.
(** rfc2865.rs:522-524 *)
Definition rfc2865_add_login_service (p : packet) (value : N) : packet :=
  packet_add p (avp_from_u32 rfc2865_LOGIN_SERVICE_TYPE value).
(** rfc2865.rs:528-532 *)
Definition rfc2865_lookup_login_service (p : packet) : option (res avp_error N) :=
  option_map (fun v => do n <- avp_encode_u32 v; Ok n) (packet_lookup p rfc2865_LOGIN_SERVICE_TYPE).
(** rfc2865.rs:534-540 *)
Definition rfc2865_lookup_all_login_service (p : packet) : res avp_error (list N) :=
  collect (fun v => do n <- avp_encode_u32 v; Ok n) (packet_lookup_all p rfc2865_LOGIN_SERVICE_TYPE).
(** rfc2865.rs:542 *)
Definition rfc2865_LOGIN_TCP_PORT_TYPE : byte := n2b 16.
(** rfc2865.rs:544-546 *)
Definition rfc2865_delete_login_tcp_port (p : packet) : packet := packet_delete p rfc2865_LOGIN_TCP_PORT_TYPE.
(** rfc2865.rs:548-550 *)
Definition rfc2865_add_login_tcp_port (p : packet) (value : N) : packet :=
  packet_add p (avp_from_u32 rfc2865_LOGIN_TCP_PORT_TYPE value).
(** rfc2865.rs:554-558 *)
Definition rfc2865_lookup_login_tcp_port (p : packet) : option (res avp_error N) :=
  option_map (fun v => do n <- avp_encode_u32 v; Ok n) (packet_lookup p rfc2865_LOGIN_TCP_PORT_TYPE).
(** rfc2865.rs:560-566 *)
Definition rfc2865_lookup_all_login_tcp_port (p : packet) : res avp_error (list N) :=
  collect (fun v => do n <- avp_encode_u32 v; Ok n) (packet_lookup_all p rfc2865_LOGIN_TCP_PORT_TYPE).
(** rfc2865.rs:568 *)
Definition rfc2865_REPLY_MESSAGE_TYPE : byte := n2b 18.
(** rfc2865.rs:570-572 *)
Definition rfc2865_delete_reply_message (p : packet) : packet := packet_delete p rfc2865_REPLY_MESSAGE_TYPE.
(** rfc2865.rs:574-576 *)
Definition rfc2865_add_reply_message (p : packet) (value : bytes) : packet :=
  packet_add p (avp_from_string rfc2865_REPLY_MESSAGE_TYPE value).
(** rfc2865.rs:580-582 *)
Definition rfc2865_lookup_reply_message (p : packet) : option (res avp_error bytes) :=
  option_map avp_encode_string (packet_lookup p rfc2865_REPLY_MESSAGE_TYPE).
(** rfc2865.rs:584-590 *)
Definition rfc2865_lookup_all_reply_message (p : packet) : res avp_error (list bytes) :=
  collect avp_encode_string (packet_lookup_all p rfc2865_REPLY_MESSAGE_TYPE).
(** rfc2865.rs:592 *)
Definition rfc2865_CALLBACK_NUMBER_TYPE : byte := n2b 19.
(** rfc2865.rs:594-596 *)
Definition rfc2865_delete_callback_number (p : packet) : packet := packet_delete p rfc2865_CALLBACK_NUMBER_TYPE.
(** rfc2865.rs:598-600 *)
Definition rfc2865_add_callback_number (p : packet) (value : bytes) : packet :=
  packet_add p (avp_from_string rfc2865_CALLBACK_NUMBER_TYPE value).
(** rfc2865.rs:604-608 *)
Definition rfc2865_lookup_callback_number (p : packet) : option (res avp_error bytes) :=
  option_map avp_encode_string (packet_lookup p rfc2865_CALLBACK_NUMBER_TYPE).
(** rfc2865.rs:610-616 *)
Definition rfc2865_lookup_all_callback_number (p : packet) : res avp_error (list bytes) :=
  collect avp_encode_string (packet_lookup_all p rfc2865_CALLBACK_NUMBER_TYPE).
(** rfc2865.rs:618 *)
Definition rfc2865_CALLBACK_ID_TYPE : byte := n2b 20.
(** rfc2865.rs:620-622 *)
Definition rfc2865_delete_callback_id (p : packet) : packet := packet_delete p rfc2865_CALLBACK_ID_TYPE.
(** rfc2865.rs:624-626 *)
Definition rfc2865_add_callback_id (p : packet) (value : bytes) : packet :=
  packet_add p (avp_from_string rfc2865_CALLBACK_ID_TYPE value).
(** rfc2865.rs:630-632 *)
Definition rfc2865_lookup_callback_id (p : packet) : option (res avp_error bytes) :=
  option_map avp_encode_string (packet_lookup p rfc2865_CALLBACK_ID_TYPE).
(** rfc2865.rs:634-640 *)
Definition rfc2865_lookup_all_callback_id (p : packet) : res avp_error (list bytes) :=
  collect avp_encode_string (packet_lookup_all p rfc2865_CALLBACK_ID_TYPE).
(** rfc2865.rs:642 *)
Definition rfc2865_FRAMED_ROUTE_TYPE : byte := n2b 22.
(** rfc2865.rs:644-646 *)
Definition rfc2865_delete_framed_route (p : packet) : packet := packet_delete p rfc2865_FRAMED_ROUTE_TYPE.
(** rfc2865.rs:648-650 *)
Definition rfc2865_add_framed_route (p : packet) (value : bytes) : packet :=
  packet_add p (avp_from_string rfc2865_FRAMED_ROUTE_TYPE value).
(** rfc2865.rs:654-656 *)
Definition rfc2865_lookup_framed_route (p : packet) : option (res avp_error bytes) :=
  option_map avp_encode_string (packet_lookup p rfc2865_FRAMED_ROUTE_TYPE).
(** rfc2865.rs:658-664 *)
Definition rfc2865_lookup_all_framed_route (p : packet) : res avp_error (list bytes) :=
  collect avp_encode_string (packet_lookup_all p rfc2865_FRAMED_ROUTE_TYPE).
(** rfc2865.rs:666 *)
Definition rfc2865_FRAMED_IPX_NETWORK_TYPE : byte := n2b 23.
(** rfc2865.rs:668-670 *)
Definition rfc2865_delete_framed_ipx_network (p : packet) : packet := packet_delete p rfc2865_FRAMED_IPX_NETWORK_TYPE.
(** rfc2865.rs:672-674 *)
Definition rfc2865_add_framed_ipx_network (p : packet) (value : ipv4) : packet :=
  packet_add p (avp_from_ipv4 rfc2865_FRAMED_IPX_NETWORK_TYPE value).
(** rfc2865.rs:678-682 *)
Definition rfc2865_lookup_framed_ipx_network (p : packet) : option (res avp_error ipv4) :=
  option_map avp_encode_ipv4 (packet_lookup p rfc2865_FRAMED_IPX_NETWORK_TYPE).
(** rfc2865.rs:684-690 *)
Definition rfc2865_lookup_all_framed_ipx_network (p : packet) : res avp_error (list ipv4) :=
  collect avp_encode_ipv4 (packet_lookup_all p rfc2865_FRAMED_IPX_NETWORK_TYPE).
(** rfc2865.rs:692 *)
Definition rfc2865_STATE_TYPE : byte := n2b 24.
(** rfc2865.rs:694-696 *)
Definition rfc2865_delete_state (p : packet) : packet := packet_delete p rfc2865_STATE_TYPE.
(** rfc2865.rs:698-700 *)
Definition rfc2865_add_state (p : packet) (value : bytes) : packet :=
  packet_add p (avp_from_bytes rfc2865_STATE_TYPE value).
(** rfc2865.rs:704-706 *)
Definition rfc2865_lookup_state (p : packet) : option bytes :=
  option_map avp_encode_bytes (packet_lookup p rfc2865_STATE_TYPE).
(** rfc2865.rs:708-714 *)
Definition rfc2865_lookup_all_state (p : packet) : list bytes :=
  collect_bytes (packet_lookup_all p rfc2865_STATE_TYPE).
(** rfc2865.rs:716 *)
Definition rfc2865_CLASS_TYPE : byte := n2b 25.
(** rfc2865.rs:718-720 *)
Definition rfc2865_delete_class (p : packet) : packet := packet_delete p rfc2865_CLASS_TYPE.
(** rfc2865.rs:722-724 *)
Definition rfc2865_add_class (p : packet) (value : bytes) : packet :=
  packet_add p (avp_from_bytes rfc2865_CLASS_TYPE value).
(** rfc2865.rs:728-730 *)
Definition rfc2865_lookup_class (p : packet) : option bytes :=
  option_map avp_encode_bytes (packet_lookup p rfc2865_CLASS_TYPE).
(** rfc2865.rs:732-738 *)
Definition rfc2865_lookup_all_class (p : packet) : list bytes :=
  collect_bytes (packet_lookup_all p rfc2865_CLASS_TYPE).
(** rfc2865.rs:740 *)
Definition rfc2865_VENDOR_SPECIFIC_TYPE : byte := n2b 26.
(** rfc2865.rs:742-744 *)
Definition rfc2865_delete_vendor_specific (p : packet) : packet := packet_delete p rfc2865_VENDOR_SPECIFIC_TYPE.
(** rfc2865.rs:362-364 *)
Definition rfc2865_add_vsa_attribute (p : packet) (value : vsa) : packet :=
  packet_add p (avp_from_bytes rfc2865_VENDOR_SPECIFIC_TYPE (vsa_message value)).
(** rfc2865.rs:746 *)
Definition rfc2865_SESSION_TIMEOUT_TYPE : byte := n2b 27.
(** rfc2865.rs:748-750 *)
Definition rfc2865_delete_session_timeout (p : packet) : packet := packet_delete p rfc2865_SESSION_TIMEOUT_TYPE.
(** rfc2865.rs:752-754 *)
Definition rfc2865_add_session_timeout (p : packet) (value : N) : packet :=
  packet_add p (avp_from_u32 rfc2865_SESSION_TIMEOUT_TYPE value).
(** rfc2865.rs:758-760 *)
Definition rfc2865_lookup_session_timeout (p : packet) : option (res avp_error N) :=
  option_map avp_encode_u32 (packet_lookup p rfc2865_SESSION_TIMEOUT_TYPE).
(** rfc2865.rs:762-768 *)
Definition rfc2865_lookup_all_session_timeout (p : packet) : res avp_error (list N) :=
  collect avp_encode_u32 (packet_lookup_all p rfc2865_SESSION_TIMEOUT_TYPE).
(** rfc2865.rs:770 *)
Definition rfc2865_IDLE_TIMEOUT_TYPE : byte := n2b 28.
(** rfc2865.rs:772-774 *)
Definition rfc2865_delete_idle_timeout (p : packet) : packet := packet_delete p rfc2865_IDLE_TIMEOUT_TYPE.
(** rfc2865.rs:776-778 *)
Definition rfc2865_add_idle_timeout (p : packet) (value : N) : packet :=
  packet_add p (avp_from_u32 rfc2865_IDLE_TIMEOUT_TYPE value).
(** rfc2865.rs:782-784 *)
Definition rfc2865_lookup_idle_timeout (p : packet) : option (res avp_error N) :=
  option_map avp_encode_u32 (packet_lookup p rfc2865_IDLE_TIMEOUT_TYPE).
(** rfc2865.rs:786-792 *)
Definition rfc2865_lookup_all_idle_timeout (p : packet) : res avp_error (list N) :=
  collect avp_encode_u32 (packet_lookup_all p rfc2865_IDLE_TIMEOUT_TYPE).
(** rfc2865.rs:794 *)
Definition rfc2865_TERMINATION_ACTION_TYPE : byte := n2b 29.
(** rfc2865.rs:796-798 *)
Definition rfc2865_delete_termination_action (p : packet) : packet := packet_delete p rfc2865_TERMINATION_ACTION_TYPE.
(** rfc2865.rs:800-802 *)
Definition rfc2865_add_termination_action (p : packet) (value : N) : packet :=
  packet_add p (avp_from_u32 rfc2865_TERMINATION_ACTION_TYPE value).
(** rfc2865.rs:806-810 *)
Definition rfc2865_lookup_termination_action (p : packet) : option (res avp_error N) :=
  option_map (fun v => do n <- avp_encode_u32 v; Ok n) (packet_lookup p rfc2865_TERMINATION_ACTION_TYPE).
(** rfc2865.rs:812-818 *)
Definition rfc2865_lookup_all_termination_action (p : packet) : res avp_error (list N) :=
  collect (fun v => do n <- avp_encode_u32 v; Ok n) (packet_lookup_all p rfc2865_TERMINATION_ACTION_TYPE).
(** rfc2865.rs:820 *)
Definition rfc2865_CALLED_STATION_ID_TYPE : byte := n2b 30.
(** rfc2865.rs:822-824 *)
Definition rfc2865_delete_called_station_id (p : packet) : packet := packet_delete p rfc2865_CALLED_STATION_ID_TYPE.
(** rfc2865.rs:826-828 *)
Definition rfc2865_add_called_station_id (p : packet) (value : bytes) : packet :=
  packet_add p (avp_from_string rfc2865_CALLED_STATION_ID_TYPE value).
(** rfc2865.rs:832-836 *)
Definition rfc2865_lookup_called_station_id (p : packet) : option (res avp_error bytes) :=
  option_map avp_encode_string (packet_lookup p rfc2865_CALLED_STATION_ID_TYPE).
(** rfc2865.rs:838-844 *)
Definition rfc2865_lookup_all_called_station_id (p : packet) : res avp_error (list bytes) :=
  collect avp_encode_string (packet_lookup_all p rfc2865_CALLED_STATION_ID_TYPE).
(** rfc2865.rs:846 *)
Definition rfc2865_CALLING_STATION_ID_TYPE : byte := n2b 31.
(** rfc2865.rs:848-850 *)
Definition rfc2865_delete_calling_station_id (p : packet) : packet := packet_delete p rfc2865_CALLING_STATION_ID_TYPE.
(** rfc2865.rs:852-854 *)
Definition rfc2865_add_calling_station_id (p : packet) (value : bytes) : packet :=
  packet_add p (avp_from_string rfc2865_CALLING_STATION_ID_TYPE value).
(** rfc2865.rs:858-862 *)
Definition rfc2865_lookup_calling_station_id (p : packet) : option (res avp_error bytes) :=
  option_map avp_encode_string (packet_lookup p rfc2865_CALLING_STATION_ID_TYPE).
(** rfc2865.rs:864-870 *)
Definition rfc2865_lookup_all_calling_station_id (p : packet) : res avp_error (list bytes) :=
  collect avp_encode_string (packet_lookup_all p rfc2865_CALLING_STATION_ID_TYPE).
(** rfc2865.rs:872 *)
Definition rfc2865_NAS_IDENTIFIER_TYPE : byte := n2b 32.
(** rfc2865.rs:874-876 *)
Definition rfc2865_delete_nas_identifier (p : packet) : packet := packet_delete p rfc2865_NAS_IDENTIFIER_TYPE.
(** rfc2865.rs:878-880 *)
Definition rfc2865_add_nas_identifier (p : packet) (value : bytes) : packet :=
  packet_add p (avp_from_string rfc2865_NAS_IDENTIFIER_TYPE value).
(** rfc2865.rs:884-888 *)
Definition rfc2865_lookup_nas_identifier (p : packet) : option (res avp_error bytes) :=
  option_map avp_encode_string (packet_lookup p rfc2865_NAS_IDENTIFIER_TYPE).
(** rfc2865.rs:890-896 *)
Definition rfc2865_lookup_all_nas_identifier (p : packet) : res avp_error (list bytes) :=
  collect avp_encode_string (packet_lookup_all p rfc2865_NAS_IDENTIFIER_TYPE).
(** rfc2865.rs:898 *)
Definition rfc2865_PROXY_STATE_TYPE : byte := n2b 33.
(** rfc2865.rs:900-902 *)
Definition rfc2865_delete_proxy_state (p : packet) : packet := packet_delete p rfc2865_PROXY_STATE_TYPE.
(** rfc2865.rs:904-906 *)
Definition rfc2865_add_proxy_state (p : packet) (value : bytes) : packet :=
  packet_add p (avp_from_bytes rfc2865_PROXY_STATE_TYPE value).
(** rfc2865.rs:910-912 *)
Definition rfc2865_lookup_proxy_state (p : packet) : option bytes :=
  option_map avp_encode_bytes (packet_lookup p rfc2865_PROXY_STATE_TYPE).
(** rfc2865.rs:914-920 *)
Definition rfc2865_lookup_all_proxy_state (p : packet) : list bytes :=
  collect_bytes (packet_lookup_all p rfc2865_PROXY_STATE_TYPE).
(** rfc2865.rs:922 *)
Definition rfc2865_LOGIN_LAT_SERVICE_TYPE : byte := n2b 34.
(** rfc2865.rs:924-926 *)
Definition rfc2865_delete_login_lat_service (p : packet) : packet := packet_delete p rfc2865_LOGIN_LAT_SERVICE_TYPE.
(** rfc2865.rs:928-930 *)
Definition rfc2865_add_login_lat_service (p : packet) (value : bytes) : packet :=
  packet_add p (avp_from_string rfc2865_LOGIN_LAT_SERVICE_TYPE value).
(** rfc2865.rs:934-938 *)
Definition rfc2865_lookup_login_lat_service (p : packet) : option (res avp_error bytes) :=
  option_map avp_encode_string (packet_lookup p rfc2865_LOGIN_LAT_SERVICE_TYPE).
(** rfc2865.rs:940-946 *)
Definition rfc2865_lookup_all_login_lat_service (p : packet) : res avp_error (list bytes) :=
  collect avp_encode_string (packet_lookup_all p rfc2865_LOGIN_LAT_SERVICE_TYPE).
(** rfc2865.rs:948 *)
Definition rfc2865_LOGIN_LAT_NODE_TYPE : byte := n2b 35.
(** rfc2865.rs:950-952 *)
Definition rfc2865_delete_login_lat_node (p : packet) : packet := packet_delete p rfc2865_LOGIN_LAT_NODE_TYPE.
(** rfc2865.rs:954-956 *)
Definition rfc2865_add_login_lat_node (p : packet) (value : bytes) : packet :=
  packet_add p (avp_from_string rfc2865_LOGIN_LAT_NODE_TYPE value).
(** rfc2865.rs:960-964 *)
Definition rfc2865_lookup_login_lat_node (p : packet) : option (res avp_error bytes) :=
  option_map avp_encode_string (packet_lookup p rfc2865_LOGIN_LAT_NODE_TYPE).
(** rfc2865.rs:966-972 *)
Definition rfc2865_lookup_all_login_lat_node (p : packet) : res avp_error (list bytes) :=
  collect avp_encode_string (packet_lookup_all p rfc2865_LOGIN_LAT_NODE_TYPE).
(** rfc2865.rs:974 *)
Definition rfc2865_LOGIN_LAT_GROUP_TYPE : byte := n2b 36.
(** rfc2865.rs:976-978 *)
Definition rfc2865_delete_login_lat_group (p : packet) : packet := packet_delete p rfc2865_LOGIN_LAT_GROUP_TYPE.
(** rfc2865.rs:980-982 *)
Definition rfc2865_add_login_lat_group (p : packet) (value : bytes) : packet :=
  packet_add p (avp_from_bytes rfc2865_LOGIN_LAT_GROUP_TYPE value).
(** rfc2865.rs:986-990 *)
Definition rfc2865_lookup_login_lat_group (p : packet) : option bytes :=
  option_map avp_encode_bytes (packet_lookup p rfc2865_LOGIN_LAT_GROUP_TYPE).
(** rfc2865.rs:992-998 *)
Definition rfc2865_lookup_all_login_lat_group (p : packet) : list bytes :=
  collect_bytes (packet_lookup_all p rfc2865_LOGIN_LAT_GROUP_TYPE).
(** rfc2865.rs:1000 *)
Definition rfc2865_FRAMED_APPLE_TALK_LINK_TYPE : byte := n2b 37.
(** rfc2865.rs:1002-1004 *)
Definition rfc2865_delete_framed_apple_talk_link (p : packet) : packet := packet_delete p rfc2865_FRAMED_APPLE_TALK_LINK_TYPE.
(** rfc2865.rs:1006-1008 *)
Definition rfc2865_add_framed_apple_talk_link (p : packet) (value : N) : packet :=
  packet_add p (avp_from_u32 rfc2865_FRAMED_APPLE_TALK_LINK_TYPE value).
(** rfc2865.rs:1012-1016 *)
Definition rfc2865_lookup_framed_apple_talk_link (p : packet) : option (res avp_error N) :=
  option_map avp_encode_u32 (packet_lookup p rfc2865_FRAMED_APPLE_TALK_LINK_TYPE).
(** rfc2865.rs:1018-1024 *)
Definition rfc2865_lookup_all_framed_apple_talk_link (p : packet) : res avp_error (list N) :=
  collect avp_encode_u32 (packet_lookup_all p rfc2865_FRAMED_APPLE_TALK_LINK_TYPE).
(** rfc2865.rs:1026 *)
Definition rfc2865_FRAMED_APPLE_TALK_NETWORK_TYPE : byte := n2b 38.
(** rfc2865.rs:1028-1030 *)
Definition rfc2865_delete_framed_apple_talk_network (p : packet) : packet := packet_delete p rfc2865_FRAMED_APPLE_TALK_NETWORK_TYPE.
(** rfc2865.rs:1032-1034 *)
Definition rfc2865_add_framed_apple_talk_network (p : packet) (value : N) : packet :=
  packet_add p (avp_from_u32 rfc2865_FRAMED_APPLE_TALK_NETWORK_TYPE value).
(** rfc2865.rs:1038-1042 *)
Definition rfc2865_lookup_framed_apple_talk_network (p : packet) : option (res avp_error N) :=
  option_map avp_encode_u32 (packet_lookup p rfc2865_FRAMED_APPLE_TALK_NETWORK_TYPE).
(** rfc2865.rs:1044-1050 *)
Definition rfc2865_lookup_all_framed_apple_talk_network (p : packet) : res avp_error (list N) :=
  collect avp_encode_u32 (packet_lookup_all p rfc2865_FRAMED_APPLE_TALK_NETWORK_TYPE).
(** rfc2865.rs:1052 *)
Definition rfc2865_FRAMED_APPLE_TALK_ZONE_TYPE : byte := n2b 39.
(** rfc2865.rs:1054-1056 *)
Definition rfc2865_delete_framed_apple_talk_zone (p : packet) : packet := packet_delete p rfc2865_FRAMED_APPLE_TALK_ZONE_TYPE.
(** rfc2865.rs:1058-1060 *)
Definition rfc2865_add_framed_apple_talk_zone (p : packet) (value : bytes) : packet :=
  packet_add p (avp_from_string rfc2865_FRAMED_APPLE_TALK_ZONE_TYPE value).
(** rfc2865.rs:1064-1068 *)
Definition rfc2865_lookup_framed_apple_talk_zone (p : packet) : option (res avp_error bytes) :=
  option_map avp_encode_string (packet_lookup p rfc2865_FRAMED_APPLE_TALK_ZONE_TYPE).
(** rfc2865.rs:1070-1076 *)
Definition rfc2865_lookup_all_framed_apple_talk_zone (p : packet) : res avp_error (list bytes) :=
  collect avp_encode_string (packet_lookup_all p rfc2865_FRAMED_APPLE_TALK_ZONE_TYPE).
(** rfc2865.rs:1078 *)
Definition rfc2865_CHAP_CHALLENGE_TYPE : byte := n2b 60.
(** rfc2865.rs:1080-1082 *)
Definition rfc2865_delete_chap_challenge (p : packet) : packet := packet_delete p rfc2865_CHAP_CHALLENGE_TYPE.
(** rfc2865.rs:1084-1086 *)
Definition rfc2865_add_chap_challenge (p : packet) (value : bytes) : packet :=
  packet_add p (avp_from_bytes rfc2865_CHAP_CHALLENGE_TYPE value).
(** rfc2865.rs:1090-1092 *)
Definition rfc2865_lookup_chap_challenge (p : packet) : option bytes :=
  option_map avp_encode_bytes (packet_lookup p rfc2865_CHAP_CHALLENGE_TYPE).
(** rfc2865.rs:1094-1100 *)
Definition rfc2865_lookup_all_chap_challenge (p : packet) : list bytes :=
  collect_bytes (packet_lookup_all p rfc2865_CHAP_CHALLENGE_TYPE).
(** rfc2865.rs:1102 *)
Definition rfc2865_NAS_PORT_TYPE_TYPE : byte := n2b 61.
(** rfc2865.rs:1104-1106 *)
Definition rfc2865_delete_nas_port_type (p : packet) : packet := packet_delete p rfc2865_NAS_PORT_TYPE_TYPE.
(** rfc2865.rs:1108-1110 *)
Definition rfc2865_add_nas_port_type (p : packet) (value : N) : packet :=
  packet_add p (avp_from_u32 rfc2865_NAS_PORT_TYPE_TYPE value).
(** rfc2865.rs:1114-1118 *)
Definition rfc2865_lookup_nas_port_type (p : packet) : option (res avp_error N) :=
  option_map (fun v => do n <- avp_encode_u32 v; Ok n) (packet_lookup p rfc2865_NAS_PORT_TYPE_TYPE).
(** rfc2865.rs:1120-1126 *)
Definition rfc2865_lookup_all_nas_port_type (p : packet) : res avp_error (list N) :=
  collect (fun v => do n <- avp_encode_u32 v; Ok n) (packet_lookup_all p rfc2865_NAS_PORT_TYPE_TYPE).
(** rfc2865.rs:1128 *)
Definition rfc2865_PORT_LIMIT_TYPE : byte := n2b 62.
(** rfc2865.rs:1130-1132 *)
Definition rfc2865_delete_port_limit (p : packet) : packet := packet_delete p rfc2865_PORT_LIMIT_TYPE.
(** rfc2865.rs:1134-1136 *)
Definition rfc2865_add_port_limit (p : packet) (value : N) : packet :=
  packet_add p (avp_from_u32 rfc2865_PORT_LIMIT_TYPE value).
(** rfc2865.rs:1140-1142 *)
Definition rfc2865_lookup_port_limit (p : packet) : option (res avp_error N) :=
  option_map avp_encode_u32 (packet_lookup p rfc2865_PORT_LIMIT_TYPE).
(** rfc2865.rs:1144-1150 *)
Definition rfc2865_lookup_all_port_limit (p : packet) : res avp_error (list N) :=
  collect avp_encode_u32 (packet_lookup_all p rfc2865_PORT_LIMIT_TYPE).
(** rfc2865.rs:1152 *)
Definition rfc2865_LOGIN_LAT_PORT_TYPE : byte := n2b 63.
(** rfc2865.rs:1154-1156 *)
Definition rfc2865_delete_login_lat_port (p : packet) : packet := packet_delete p rfc2865_LOGIN_LAT_PORT_TYPE.
(** rfc2865.rs:1158-1160 *)
Definition rfc2865_add_login_lat_port (p : packet) (value : bytes) : packet :=
  packet_add p (avp_from_string rfc2865_LOGIN_LAT_PORT_TYPE value).
(** rfc2865.rs:1164-1168 *)
Definition rfc2865_lookup_login_lat_port (p : packet) : option (res avp_error bytes) :=
  option_map avp_encode_string (packet_lookup p rfc2865_LOGIN_LAT_PORT_TYPE).
(** rfc2865.rs:1170-1176 *)
Definition rfc2865_lookup_all_login_lat_port (p : packet) : res avp_error (list bytes) :=
  collect avp_encode_string (packet_lookup_all p rfc2865_LOGIN_LAT_PORT_TYPE).
(** ** radius/src/core/rfc2866.rs *)
(** rfc2866.rs:72 *)
Definition rfc2866_ACCT_STATUS_TYPE_TYPE : byte := n2b 40.
(** rfc2866.rs:74-76 *)
Definition rfc2866_delete_acct_status_type (p : packet) : packet := packet_delete p rfc2866_ACCT_STATUS_TYPE_TYPE.
(** rfc2866.rs:78-80 *)
Definition rfc2866_add_acct_status_type (p : packet) (value : N) : packet :=
  packet_add p (avp_from_u32 rfc2866_ACCT_STATUS_TYPE_TYPE value).
(** rfc2866.rs:84-88 *)
Definition rfc2866_lookup_acct_status_type (p : packet) : option (res avp_error N) :=
  option_map (fun v => do n <- avp_encode_u32 v; Ok n) (packet_lookup p rfc2866_ACCT_STATUS_TYPE_TYPE).
(** rfc2866.rs:90-96 *)
Definition rfc2866_lookup_all_acct_status_type (p : packet) : res avp_error (list N) :=
  collect (fun v => do n <- avp_encode_u32 v; Ok n) (packet_lookup_all p rfc2866_ACCT_STATUS_TYPE_TYPE).
(** rfc2866.rs:98 *)
Definition rfc2866_ACCT_DELAY_TIME_TYPE : byte := n2b 41.
(** rfc2866.rs:100-102 *)
Definition rfc2866_delete_acct_delay_time (p : packet) : packet := packet_delete p rfc2866_ACCT_DELAY_TIME_TYPE.
(** rfc2866.rs:104-106 *)
Definition rfc2866_add_acct_delay_time (p : packet) (value : N) : packet :=
  packet_add p (avp_from_u32 rfc2866_ACCT_DELAY_TIME_TYPE value).
(** rfc2866.rs:110-112 *)
Definition rfc2866_lookup_acct_delay_time (p : packet) : option (res avp_error N) :=
  option_map avp_encode_u32 (packet_lookup p rfc2866_ACCT_DELAY_TIME_TYPE).
(** rfc2866.rs:114-120 *)
Definition rfc2866_lookup_all_acct_delay_time (p : packet) : res avp_error (list N) :=
  collect avp_encode_u32 (packet_lookup_all p rfc2866_ACCT_DELAY_TIME_TYPE).
(** rfc2866.rs:122 *)
Definition rfc2866_ACCT_INPUT_OCTETS_TYPE : byte := n2b 42.
(** rfc2866.rs:124-126 *)
Definition rfc2866_delete_acct_input_octets (p : packet) : packet := packet_delete p rfc2866_ACCT_INPUT_OCTETS_TYPE.
(** rfc2866.rs:128-130 *)
Definition rfc2866_add_acct_input_octets (p : packet) (value : N) : packet :=
  packet_add p (avp_from_u32 rfc2866_ACCT_INPUT_OCTETS_TYPE value).
(** rfc2866.rs:134-138 *)
Definition rfc2866_lookup_acct_input_octets (p : packet) : option (res avp_error N) :=
  option_map avp_encode_u32 (packet_lookup p rfc2866_ACCT_INPUT_OCTETS_TYPE).
(** rfc2866.rs:140-146 *)
Definition rfc2866_lookup_all_acct_input_octets (p : packet) : res avp_error (list N) :=
  collect avp_encode_u32 (packet_lookup_all p rfc2866_ACCT_INPUT_OCTETS_TYPE).
(** rfc2866.rs:148 *)
Definition rfc2866_ACCT_OUTPUT_OCTETS_TYPE : byte := n2b 43.
(** rfc2866.rs:150-152 *)
Definition rfc2866_delete_acct_output_octets (p : packet) : packet := packet_delete p rfc2866_ACCT_OUTPUT_OCTETS_TYPE.
(** rfc2866.rs:154-156 *)
Definition rfc2866_add_acct_output_octets (p : packet) (value : N) : packet :=
  packet_add p (avp_from_u32 rfc2866_ACCT_OUTPUT_OCTETS_TYPE value).
(** rfc2866.rs:160-164 *)
Definition rfc2866_lookup_acct_output_octets (p : packet) : option (res avp_error N) :=
  option_map avp_encode_u32 (packet_lookup p rfc2866_ACCT_OUTPUT_OCTETS_TYPE).
(** rfc2866.rs:166-172 *)
Definition rfc2866_lookup_all_acct_output_octets (p : packet) : res avp_error (list N) :=
  collect avp_encode_u32 (packet_lookup_all p rfc2866_ACCT_OUTPUT_OCTETS_TYPE).
(** rfc2866.rs:174 *)
Definition rfc2866_ACCT_SESSION_ID_TYPE : byte := n2b 44.
(** rfc2866.rs:176-178 *)
Definition rfc2866_delete_acct_session_id (p : packet) : packet := packet_delete p rfc2866_ACCT_SESSION_ID_TYPE.
(** rfc2866.rs:180-182 *)
Definition rfc2866_add_acct_session_id (p : packet) (value : bytes) : packet :=
  packet_add p (avp_from_string rfc2866_ACCT_SESSION_ID_TYPE value).
(** rfc2866.rs:186-190 *)
Definition rfc2866_lookup_acct_session_id (p : packet) : option (res avp_error bytes) :=
  option_map avp_encode_string (packet_lookup p rfc2866_ACCT_SESSION_ID_TYPE).
(** rfc2866.rs:192-198 *)
Definition rfc2866_lookup_all_acct_session_id (p : packet) : res avp_error (list bytes) :=
  collect avp_encode_string (packet_lookup_all p rfc2866_ACCT_SESSION_ID_TYPE).
(** rfc2866.rs:200 *)
Definition rfc2866_ACCT_AUTHENTIC_TYPE : byte := n2b 45.
(** rfc2866.rs:202-204 *)
Definition rfc2866_delete_acct_authentic (p : packet) : packet := packet_delete p rfc2866_ACCT_AUTHENTIC_TYPE.
(** rfc2866.rs:206-208 *)
Definition rfc2866_add_acct_authentic (p : packet) (value : N) : packet :=
  packet_add p (avp_from_u32 rfc2866_ACCT_AUTHENTIC_TYPE value).
(** rfc2866.rs:212-216 *)
Definition rfc2866_lookup_acct_authentic (p : packet) : option (res avp_error N) :=
  option_map (fun v => do n <- avp_encode_u32 v; Ok n) (packet_lookup p rfc2866_ACCT_AUTHENTIC_TYPE).
(** rfc2866.rs:218-224 *)
Definition rfc2866_lookup_all_acct_authentic (p : packet) : res avp_error (list N) :=
  collect (fun v => do n <- avp_encode_u32 v; Ok n) (packet_lookup_all p rfc2866_ACCT_AUTHENTIC_TYPE).
(** rfc2866.rs:226 *)
Definition rfc2866_ACCT_SESSION_TIME_TYPE : byte := n2b 46.
(** rfc2866.rs:228-230 *)
Definition rfc2866_delete_acct_session_time (p : packet) : packet := packet_delete p rfc2866_ACCT_SESSION_TIME_TYPE.
(** rfc2866.rs:232-234 *)
Definition rfc2866_add_acct_session_time (p : packet) (value : N) : packet :=
  packet_add p (avp_from_u32 rfc2866_ACCT_SESSION_TIME_TYPE value).
(** rfc2866.rs:238-242 *)
Definition rfc2866_lookup_acct_session_time (p : packet) : option (res avp_error N) :=
  option_map avp_encode_u32 (packet_lookup p rfc2866_ACCT_SESSION_TIME_TYPE).
(** rfc2866.rs:244-250 *)
Definition rfc2866_lookup_all_acct_session_time (p : packet) : res avp_error (list N) :=
  collect avp_encode_u32 (packet_lookup_all p rfc2866_ACCT_SESSION_TIME_TYPE).
(** rfc2866.rs:252 *)
Definition rfc2866_ACCT_INPUT_PACKETS_TYPE : byte := n2b 47.
(** rfc2866.rs:254-256 *)
Definition rfc2866_delete_acct_input_packets (p : packet) : packet := packet_delete p rfc2866_ACCT_INPUT_PACKETS_TYPE.
(** rfc2866.rs:258-260 *)
Definition rfc2866_add_acct_input_packets (p : packet) (value : N) : packet :=
  packet_add p (avp_from_u32 rfc2866_ACCT_INPUT_PACKETS_TYPE value).
(** rfc2866.rs:264-268 *)
Definition rfc2866_lookup_acct_input_packets (p : packet) : option (res avp_error N) :=
  option_map avp_encode_u32 (packet_lookup p rfc2866_ACCT_INPUT_PACKETS_TYPE).
(** rfc2866.rs:270-276 *)
Definition rfc2866_lookup_all_acct_input_packets (p : packet) : res avp_error (list N) :=
  collect avp_encode_u32 (packet_lookup_all p rfc2866_ACCT_INPUT_PACKETS_TYPE).
(** rfc2866.rs:278 *)
Definition rfc2866_ACCT_OUTPUT_PACKETS_TYPE : byte := n2b 48.
(** rfc2866.rs:280-282 *)
Definition rfc2866_delete_acct_output_packets (p : packet) : packet := packet_delete p rfc2866_ACCT_OUTPUT_PACKETS_TYPE.
(** rfc2866.rs:284-286 *)
Definition rfc2866_add_acct_output_packets (p : packet) (value : N) : packet :=
  packet_add p (avp_from_u32 rfc2866_ACCT_OUTPUT_PACKETS_TYPE value).
(** rfc2866.rs:290-294 *)
Definition rfc2866_lookup_acct_output_packets (p : packet) : option (res avp_error N) :=
  option_map avp_encode_u32 (packet_lookup p rfc2866_ACCT_OUTPUT_PACKETS_TYPE).
(** rfc2866.rs:296-302 *)
Definition rfc2866_lookup_all_acct_output_packets (p : packet) : res avp_error (list N) :=
  collect avp_encode_u32 (packet_lookup_all p rfc2866_ACCT_OUTPUT_PACKETS_TYPE).
(** rfc2866.rs:304 *)
Definition rfc2866_ACCT_TERMINATE_CAUSE_TYPE : byte := n2b 49.
(** rfc2866.rs:306-308 *)
Definition rfc2866_delete_acct_terminate_cause (p : packet) : packet := packet_delete p rfc2866_ACCT_TERMINATE_CAUSE_TYPE.
(** rfc2866.rs:310-312 *)
Definition rfc2866_add_acct_terminate_cause (p : packet) (value : N) : packet :=
  packet_add p (avp_from_u32 rfc2866_ACCT_TERMINATE_CAUSE_TYPE value).
(** rfc2866.rs:316-322 *)
Definition rfc2866_lookup_acct_terminate_cause (p : packet) : option (res avp_error N) :=
  option_map (fun v => do n <- avp_encode_u32 v; Ok n) (packet_lookup p rfc2866_ACCT_TERMINATE_CAUSE_TYPE).
(** rfc2866.rs:324-332 *)
Definition rfc2866_lookup_all_acct_terminate_cause (p : packet) : res avp_error (list N) :=
  collect (fun v => do n <- avp_encode_u32 v; Ok n) (packet_lookup_all p rfc2866_ACCT_TERMINATE_CAUSE_TYPE).
(** rfc2866.rs:334 *)
Definition rfc2866_ACCT_MULTI_SESSION_ID_TYPE : byte := n2b 50.
(** rfc2866.rs:336-338 *)
Definition rfc2866_delete_acct_multi_session_id (p : packet) : packet := packet_delete p rfc2866_ACCT_MULTI_SESSION_ID_TYPE.
(** rfc2866.rs:340-342 *)
Definition rfc2866_add_acct_multi_session_id (p : packet) (value : bytes) : packet :=
  packet_add p (avp_from_string rfc2866_ACCT_MULTI_SESSION_ID_TYPE value).
(** rfc2866.rs:346-350 *)
Definition rfc2866_lookup_acct_multi_session_id (p : packet) : option (res avp_error bytes) :=
  option_map avp_encode_string (packet_lookup p rfc2866_ACCT_MULTI_SESSION_ID_TYPE).
(** rfc2866.rs:352-358 *)
Definition rfc2866_lookup_all_acct_multi_session_id (p : packet) : res avp_error (list bytes) :=
  collect avp_encode_string (packet_lookup_all p rfc2866_ACCT_MULTI_SESSION_ID_TYPE).
(** rfc2866.rs:360 *)
Definition rfc2866_ACCT_LINK_COUNT_TYPE : byte := n2b 51.
(** rfc2866.rs:362-364 *)
Definition rfc2866_delete_acct_link_count (p : packet) : packet := packet_delete p rfc2866_ACCT_LINK_COUNT_TYPE.
(** rfc2866.rs:366-368 *)
Definition rfc2866_add_acct_link_count (p : packet) (value : N) : packet :=
  packet_add p (avp_from_u32 rfc2866_ACCT_LINK_COUNT_TYPE value).
(** rfc2866.rs:372-374 *)
Definition rfc2866_lookup_acct_link_count (p : packet) : option (res avp_error N) :=
  option_map avp_encode_u32 (packet_lookup p rfc2866_ACCT_LINK_COUNT_TYPE).
(** rfc2866.rs:376-382 *)
Definition rfc2866_lookup_all_acct_link_count (p : packet) : res avp_error (list N) :=
  collect avp_encode_u32 (packet_lookup_all p rfc2866_ACCT_LINK_COUNT_TYPE).
(** ** radius/src/core/rfc2867.rs *)
(** rfc2867.rs:33 *)
Definition rfc2867_ACCT_TUNNEL_CONNECTION_TYPE : byte := n2b 68.
(** rfc2867.rs:35-37 *)
Definition rfc2867_delete_acct_tunnel_connection (p : packet) : packet := packet_delete p rfc2867_ACCT_TUNNEL_CONNECTION_TYPE.
(** rfc2867.rs:39-41 *)
Definition rfc2867_add_acct_tunnel_connection (p : packet) (value : bytes) : packet :=
  packet_add p (avp_from_string rfc2867_ACCT_TUNNEL_CONNECTION_TYPE value).
(** rfc2867.rs:45-49 *)
Definition rfc2867_lookup_acct_tunnel_connection (p : packet) : option (res avp_error bytes) :=
  option_map avp_encode_string (packet_lookup p rfc2867_ACCT_TUNNEL_CONNECTION_TYPE).
(** rfc2867.rs:51-57 *)
Definition rfc2867_lookup_all_acct_tunnel_connection (p : packet) : res avp_error (list bytes) :=
  collect avp_encode_string (packet_lookup_all p rfc2867_ACCT_TUNNEL_CONNECTION_TYPE).
(** rfc2867.rs:59 *)
Definition rfc2867_ACCT_TUNNEL_PACKETS_LOST_TYPE : byte := n2b 86.
(** rfc2867.rs:61-63 *)
Definition rfc2867_delete_acct_tunnel_packets_lost (p : packet) : packet := packet_delete p rfc2867_ACCT_TUNNEL_PACKETS_LOST_TYPE.
(** rfc2867.rs:65-67 *)
Definition rfc2867_add_acct_tunnel_packets_lost (p : packet) (value : N) : packet :=
  packet_add p (avp_from_u32 rfc2867_ACCT_TUNNEL_PACKETS_LOST_TYPE value).
(** rfc2867.rs:71-75 *)
Definition rfc2867_lookup_acct_tunnel_packets_lost (p : packet) : option (res avp_error N) :=
  option_map avp_encode_u32 (packet_lookup p rfc2867_ACCT_TUNNEL_PACKETS_LOST_TYPE).
(** rfc2867.rs:77-83 *)
Definition rfc2867_lookup_all_acct_tunnel_packets_lost (p : packet) : res avp_error (list N) :=
  collect avp_encode_u32 (packet_lookup_all p rfc2867_ACCT_TUNNEL_PACKETS_LOST_TYPE).
(** ** radius/src/core/rfc2868.rs *)
(** rfc2868.rs:70 *)
Definition rfc2868_TUNNEL_TYPE_TYPE : byte := n2b 64.
(** rfc2868.rs:72-74 *)
Definition rfc2868_delete_tunnel_type (p : packet) : packet := packet_delete p rfc2868_TUNNEL_TYPE_TYPE.
(** rfc2868.rs:76-78 *)
Definition rfc2868_add_tunnel_type (p : packet) (t : option tag) (value : N) : packet :=
  packet_add p (avp_from_tagged_u32 rfc2868_TUNNEL_TYPE_TYPE t value).
(** rfc2868.rs:82-87 *)
Definition rfc2868_lookup_tunnel_type (p : packet) : option (res avp_error (N * tag)) :=
  option_map (fun v => do vt <- avp_encode_tagged_u32 v; let (v, t) := vt in Ok (v, t)) (packet_lookup p rfc2868_TUNNEL_TYPE_TYPE).
(** rfc2868.rs:89-96 *)
Definition rfc2868_lookup_all_tunnel_type (p : packet) : res avp_error (list (N * tag)) :=
  collect (fun v => do vt <- avp_encode_tagged_u32 v; let (v, t) := vt in Ok (v, t)) (packet_lookup_all p rfc2868_TUNNEL_TYPE_TYPE).
(** rfc2868.rs:98 *)
Definition rfc2868_TUNNEL_MEDIUM_TYPE_TYPE : byte := n2b 65.
(** rfc2868.rs:100-102 *)
Definition rfc2868_delete_tunnel_medium_type (p : packet) : packet := packet_delete p rfc2868_TUNNEL_MEDIUM_TYPE_TYPE.
(** rfc2868.rs:104-106 *)
Definition rfc2868_add_tunnel_medium_type (p : packet) (t : option tag) (value : N) : packet :=
  packet_add p (avp_from_tagged_u32 rfc2868_TUNNEL_MEDIUM_TYPE_TYPE t value).
(** rfc2868.rs:110-117 *)
Definition rfc2868_lookup_tunnel_medium_type (p : packet) : option (res avp_error (N * tag)) :=
  option_map (fun v => do vt <- avp_encode_tagged_u32 v; let (v, t) := vt in Ok (v, t)) (packet_lookup p rfc2868_TUNNEL_MEDIUM_TYPE_TYPE).
(** rfc2868.rs:119-128 *)
Definition rfc2868_lookup_all_tunnel_medium_type (p : packet) : res avp_error (list (N * tag)) :=
  collect (fun v => do vt <- avp_encode_tagged_u32 v; let (v, t) := vt in Ok (v, t)) (packet_lookup_all p rfc2868_TUNNEL_MEDIUM_TYPE_TYPE).
(** rfc2868.rs:130 *)
Definition rfc2868_TUNNEL_CLIENT_ENDPOINT_TYPE : byte := n2b 66.
(** rfc2868.rs:132-134 *)
Definition rfc2868_delete_tunnel_client_endpoint (p : packet) : packet := packet_delete p rfc2868_TUNNEL_CLIENT_ENDPOINT_TYPE.
(** rfc2868.rs:136-142 *)
Definition rfc2868_add_tunnel_client_endpoint (p : packet) (t : option tag) (value : bytes) : packet :=
  packet_add p (avp_from_tagged_string rfc2868_TUNNEL_CLIENT_ENDPOINT_TYPE t value).
(** rfc2868.rs:146-152 *)
Definition rfc2868_lookup_tunnel_client_endpoint (p : packet) : option (res avp_error (bytes * option tag)) :=
  option_map avp_encode_tagged_string (packet_lookup p rfc2868_TUNNEL_CLIENT_ENDPOINT_TYPE).
(** rfc2868.rs:154-162 *)
Definition rfc2868_lookup_all_tunnel_client_endpoint (p : packet) : res avp_error (list (bytes * option tag)) :=
  collect avp_encode_tagged_string (packet_lookup_all p rfc2868_TUNNEL_CLIENT_ENDPOINT_TYPE).
(** rfc2868.rs:164 *)
Definition rfc2868_TUNNEL_SERVER_ENDPOINT_TYPE : byte := n2b 67.
(** rfc2868.rs:166-168 *)
Definition rfc2868_delete_tunnel_server_endpoint (p : packet) : packet := packet_delete p rfc2868_TUNNEL_SERVER_ENDPOINT_TYPE.
(** rfc2868.rs:170-176 *)
Definition rfc2868_add_tunnel_server_endpoint (p : packet) (t : option tag) (value : bytes) : packet :=
  packet_add p (avp_from_tagged_string rfc2868_TUNNEL_SERVER_ENDPOINT_TYPE t value).
(** rfc2868.rs:180-186 *)
Definition rfc2868_lookup_tunnel_server_endpoint (p : packet) : option (res avp_error (bytes * option tag)) :=
  option_map avp_encode_tagged_string (packet_lookup p rfc2868_TUNNEL_SERVER_ENDPOINT_TYPE).
(** rfc2868.rs:188-196 *)
Definition rfc2868_lookup_all_tunnel_server_endpoint (p : packet) : res avp_error (list (bytes * option tag)) :=
  collect avp_encode_tagged_string (packet_lookup_all p rfc2868_TUNNEL_SERVER_ENDPOINT_TYPE).
(** rfc2868.rs:198 *)
Definition rfc2868_TUNNEL_PASSWORD_TYPE : byte := n2b 69.
(** rfc2868.rs:200-202 *)
Definition rfc2868_delete_tunnel_password (p : packet) : packet := packet_delete p rfc2868_TUNNEL_PASSWORD_TYPE.
(** rfc2868.rs:204-217 *)
Definition rfc2868_add_tunnel_password (p : packet) (r0 r1 : byte) (t : option tag) (value : bytes) : packet * res avp_error unit :=
  try_add p
    (avp_from_tunnel_password r0 r1 rfc2868_TUNNEL_PASSWORD_TYPE t value (packet_get_secret p) (packet_get_authenticator p)).
(** rfc2868.rs:221-225 *)
Definition rfc2868_lookup_tunnel_password (p : packet) : option (res avp_error (bytes * tag)) :=
  option_map (fun v => avp_encode_tunnel_password v (packet_get_secret p) (packet_get_authenticator p))
    (packet_lookup p rfc2868_TUNNEL_PASSWORD_TYPE).
(** rfc2868.rs:227-233 *)
Definition rfc2868_lookup_all_tunnel_password (p : packet) : res avp_error (list (bytes * tag)) :=
  collect (fun v => avp_encode_tunnel_password v (packet_get_secret p) (packet_get_authenticator p))
    (packet_lookup_all p rfc2868_TUNNEL_PASSWORD_TYPE).
(** rfc2868.rs:235 *)
Definition rfc2868_TUNNEL_PRIVATE_GROUP_ID_TYPE : byte := n2b 81.
(** rfc2868.rs:237-239 *)
Definition rfc2868_delete_tunnel_private_group_id (p : packet) : packet := packet_delete p rfc2868_TUNNEL_PRIVATE_GROUP_ID_TYPE.
(** rfc2868.rs:241-247 *)
Definition rfc2868_add_tunnel_private_group_id (p : packet) (t : option tag) (value : bytes) : packet :=
  packet_add p (avp_from_tagged_string rfc2868_TUNNEL_PRIVATE_GROUP_ID_TYPE t value).
(** rfc2868.rs:251-257 *)
Definition rfc2868_lookup_tunnel_private_group_id (p : packet) : option (res avp_error (bytes * option tag)) :=
  option_map avp_encode_tagged_string (packet_lookup p rfc2868_TUNNEL_PRIVATE_GROUP_ID_TYPE).
(** rfc2868.rs:259-267 *)
Definition rfc2868_lookup_all_tunnel_private_group_id (p : packet) : res avp_error (list (bytes * option tag)) :=
  collect avp_encode_tagged_string (packet_lookup_all p rfc2868_TUNNEL_PRIVATE_GROUP_ID_TYPE).
(** rfc2868.rs:269 *)
Definition rfc2868_TUNNEL_ASSIGNMENT_ID_TYPE : byte := n2b 82.
(** rfc2868.rs:271-273 *)
Definition rfc2868_delete_tunnel_assignment_id (p : packet) : packet := packet_delete p rfc2868_TUNNEL_ASSIGNMENT_ID_TYPE.
(** rfc2868.rs:275-281 *)
Definition rfc2868_add_tunnel_assignment_id (p : packet) (t : option tag) (value : bytes) : packet :=
  packet_add p (avp_from_tagged_string rfc2868_TUNNEL_ASSIGNMENT_ID_TYPE t value).
(** rfc2868.rs:285-291 *)
Definition rfc2868_lookup_tunnel_assignment_id (p : packet) : option (res avp_error (bytes * option tag)) :=
  option_map avp_encode_tagged_string (packet_lookup p rfc2868_TUNNEL_ASSIGNMENT_ID_TYPE).
(** rfc2868.rs:293-301 *)
Definition rfc2868_lookup_all_tunnel_assignment_id (p : packet) : res avp_error (list (bytes * option tag)) :=
  collect avp_encode_tagged_string (packet_lookup_all p rfc2868_TUNNEL_ASSIGNMENT_ID_TYPE).
(** rfc2868.rs:303 *)
Definition rfc2868_TUNNEL_PREFERENCE_TYPE : byte := n2b 83.
(** rfc2868.rs:305-307 *)
Definition rfc2868_delete_tunnel_preference (p : packet) : packet := packet_delete p rfc2868_TUNNEL_PREFERENCE_TYPE.
(** rfc2868.rs:309-311 *)
Definition rfc2868_add_tunnel_preference (p : packet) (t : option tag) (value : N) : packet :=
  packet_add p (avp_from_tagged_u32 rfc2868_TUNNEL_PREFERENCE_TYPE t value).
(** rfc2868.rs:315-319 *)
Definition rfc2868_lookup_tunnel_preference (p : packet) : option (res avp_error (N * tag)) :=
  option_map avp_encode_tagged_u32 (packet_lookup p rfc2868_TUNNEL_PREFERENCE_TYPE).
(** rfc2868.rs:321-327 *)
Definition rfc2868_lookup_all_tunnel_preference (p : packet) : res avp_error (list (N * tag)) :=
  collect avp_encode_tagged_u32 (packet_lookup_all p rfc2868_TUNNEL_PREFERENCE_TYPE).
(** rfc2868.rs:329 *)
Definition rfc2868_TUNNEL_CLIENT_AUTH_ID_TYPE : byte := n2b 90.
(** rfc2868.rs:331-333 *)
Definition rfc2868_delete_tunnel_client_auth_id (p : packet) : packet := packet_delete p rfc2868_TUNNEL_CLIENT_AUTH_ID_TYPE.
(** rfc2868.rs:335-341 *)
Definition rfc2868_add_tunnel_client_auth_id (p : packet) (t : option tag) (value : bytes) : packet :=
  packet_add p (avp_from_tagged_string rfc2868_TUNNEL_CLIENT_AUTH_ID_TYPE t value).
(** rfc2868.rs:345-351 *)
Definition rfc2868_lookup_tunnel_client_auth_id (p : packet) : option (res avp_error (bytes * option tag)) :=
  option_map avp_encode_tagged_string (packet_lookup p rfc2868_TUNNEL_CLIENT_AUTH_ID_TYPE).
(** rfc2868.rs:353-361 *)
Definition rfc2868_lookup_all_tunnel_client_auth_id (p : packet) : res avp_error (list (bytes * option tag)) :=
  collect avp_encode_tagged_string (packet_lookup_all p rfc2868_TUNNEL_CLIENT_AUTH_ID_TYPE).
(** rfc2868.rs:363 *)
Definition rfc2868_TUNNEL_SERVER_AUTH_ID_TYPE : byte := n2b 91.
(** rfc2868.rs:365-367 *)
Definition rfc2868_delete_tunnel_server_auth_id (p : packet) : packet := packet_delete p rfc2868_TUNNEL_SERVER_AUTH_ID_TYPE.
(** rfc2868.rs:369-375 *)
Definition rfc2868_add_tunnel_server_auth_id (p : packet) (t : option tag) (value : bytes) : packet :=
  packet_add p (avp_from_tagged_string rfc2868_TUNNEL_SERVER_AUTH_ID_TYPE t value).
(** rfc2868.rs:379-385 *)
Definition rfc2868_lookup_tunnel_server_auth_id (p : packet) : option (res avp_error (bytes * option tag)) :=
  option_map avp_encode_tagged_string (packet_lookup p rfc2868_TUNNEL_SERVER_AUTH_ID_TYPE).
(** rfc2868.rs:387-395 *)
Definition rfc2868_lookup_all_tunnel_server_auth_id (p : packet) : res avp_error (list (bytes * option tag)) :=
  collect avp_encode_tagged_string (packet_lookup_all p rfc2868_TUNNEL_SERVER_AUTH_ID_TYPE).
(** ** radius/src/core/rfc2869.rs *)
(** rfc2869.rs:56 *)
Definition rfc2869_ACCT_INPUT_GIGAWORDS_TYPE : byte := n2b 52.
(** rfc2869.rs:58-60 *)
Definition rfc2869_delete_acct_input_gigawords (p : packet) : packet := packet_delete p rfc2869_ACCT_INPUT_GIGAWORDS_TYPE.
(** rfc2869.rs:62-64 *)
Definition rfc2869_add_acct_input_gigawords (p : packet) (value : N) : packet :=
  packet_add p (avp_from_u32 rfc2869_ACCT_INPUT_GIGAWORDS_TYPE value).
(** rfc2869.rs:68-72 *)
Definition rfc2869_lookup_acct_input_gigawords (p : packet) : option (res avp_error N) :=
  option_map avp_encode_u32 (packet_lookup p rfc2869_ACCT_INPUT_GIGAWORDS_TYPE).
(** rfc2869.rs:74-80 *)
Definition rfc2869_lookup_all_acct_input_gigawords (p : packet) : res avp_error (list N) :=
  collect avp_encode_u32 (packet_lookup_all p rfc2869_ACCT_INPUT_GIGAWORDS_TYPE).
(** rfc2869.rs:82 *)
Definition rfc2869_ACCT_OUTPUT_GIGAWORDS_TYPE : byte := n2b 53.
(** rfc2869.rs:84-86 *)
Definition rfc2869_delete_acct_output_gigawords (p : packet) : packet := packet_delete p rfc2869_ACCT_OUTPUT_GIGAWORDS_TYPE.
(** rfc2869.rs:88-90 *)
Definition rfc2869_add_acct_output_gigawords (p : packet) (value : N) : packet :=
  packet_add p (avp_from_u32 rfc2869_ACCT_OUTPUT_GIGAWORDS_TYPE value).
(** rfc2869.rs:94-98 *)
Definition rfc2869_lookup_acct_output_gigawords (p : packet) : option (res avp_error N) :=
  option_map avp_encode_u32 (packet_lookup p rfc2869_ACCT_OUTPUT_GIGAWORDS_TYPE).
(** rfc2869.rs:100-106 *)
Definition rfc2869_lookup_all_acct_output_gigawords (p : packet) : res avp_error (list N) :=
  collect avp_encode_u32 (packet_lookup_all p rfc2869_ACCT_OUTPUT_GIGAWORDS_TYPE).
(** rfc2869.rs:108 *)
Definition rfc2869_EVENT_TIMESTAMP_TYPE : byte := n2b 55.
(** rfc2869.rs:110-112 *)
Definition rfc2869_delete_event_timestamp (p : packet) : packet := packet_delete p rfc2869_EVENT_TIMESTAMP_TYPE.
(** rfc2869.rs:114-116 *)
Definition rfc2869_add_event_timestamp (p : packet) (value : datetime) : packet :=
  packet_add p (avp_from_date rfc2869_EVENT_TIMESTAMP_TYPE value).
(** rfc2869.rs:120-122 *)
Definition rfc2869_lookup_event_timestamp (p : packet) : option (res avp_error datetime) :=
  option_map avp_encode_date (packet_lookup p rfc2869_EVENT_TIMESTAMP_TYPE).
(** rfc2869.rs:124-130 *)
Definition rfc2869_lookup_all_event_timestamp (p : packet) : res avp_error (list datetime) :=
  collect avp_encode_date (packet_lookup_all p rfc2869_EVENT_TIMESTAMP_TYPE).
(** rfc2869.rs:132 *)
Definition rfc2869_ARAP_PASSWORD_TYPE : byte := n2b 70.
(** rfc2869.rs:134-136 *)
Definition rfc2869_delete_arap_password (p : packet) : packet := packet_delete p rfc2869_ARAP_PASSWORD_TYPE.
(** rfc2869.rs:138-147 *)
Definition rfc2869_add_arap_password (p : packet) (value : bytes) : packet * res avp_error unit :=
  if negb (len value =? 16) then (p, Err (InvalidAttributeLengthError "16 bytes" (len value)))
  else (packet_add p (avp_from_bytes rfc2869_ARAP_PASSWORD_TYPE value), Ok tt).
(** rfc2869.rs:151-153 *)
Definition rfc2869_lookup_arap_password (p : packet) : option bytes :=
  option_map avp_encode_bytes (packet_lookup p rfc2869_ARAP_PASSWORD_TYPE).
(** rfc2869.rs:155-161 *)
Definition rfc2869_lookup_all_arap_password (p : packet) : list bytes :=
  collect_bytes (packet_lookup_all p rfc2869_ARAP_PASSWORD_TYPE).
(** rfc2869.rs:163 *)
Definition rfc2869_ARAP_FEATURES_TYPE : byte := n2b 71.
(** rfc2869.rs:165-167 *)
Definition rfc2869_delete_arap_features (p : packet) : packet := packet_delete p rfc2869_ARAP_FEATURES_TYPE.
(** rfc2869.rs:169-178 *)
Definition rfc2869_add_arap_features (p : packet) (value : bytes) : packet * res avp_error unit :=
  if negb (len value =? 14) then (p, Err (InvalidAttributeLengthError "14 bytes" (len value)))
  else (packet_add p (avp_from_bytes rfc2869_ARAP_FEATURES_TYPE value), Ok tt).
(** rfc2869.rs:182-184 *)
Definition rfc2869_lookup_arap_features (p : packet) : option bytes :=
  option_map avp_encode_bytes (packet_lookup p rfc2869_ARAP_FEATURES_TYPE).
(** rfc2869.rs:186-192 *)
Definition rfc2869_lookup_all_arap_features (p : packet) : list bytes :=
  collect_bytes (packet_lookup_all p rfc2869_ARAP_FEATURES_TYPE).
(** rfc2869.rs:194 *)
Definition rfc2869_ARAP_ZONE_ACCESS_TYPE : byte := n2b 72.
(** rfc2869.rs:196-198 *)
Definition rfc2869_delete_arap_zone_access (p : packet) : packet := packet_delete p rfc2869_ARAP_ZONE_ACCESS_TYPE.
(** rfc2869.rs:200-202 *)
Definition rfc2869_add_arap_zone_access (p : packet) (value : N) : packet :=
  packet_add p (avp_from_u32 rfc2869_ARAP_ZONE_ACCESS_TYPE value).
(** rfc2869.rs:206-210 *)
Definition rfc2869_lookup_arap_zone_access (p : packet) : option (res avp_error N) :=
  option_map (fun v => do n <- avp_encode_u32 v; Ok n) (packet_lookup p rfc2869_ARAP_ZONE_ACCESS_TYPE).
(** rfc2869.rs:212-218 *)
Definition rfc2869_lookup_all_arap_zone_access (p : packet) : res avp_error (list N) :=
  collect (fun v => do n <- avp_encode_u32 v; Ok n) (packet_lookup_all p rfc2869_ARAP_ZONE_ACCESS_TYPE).
(** rfc2869.rs:220 *)
Definition rfc2869_ARAP_SECURITY_TYPE : byte := n2b 73.
(** rfc2869.rs:222-224 *)
Definition rfc2869_delete_arap_security (p : packet) : packet := packet_delete p rfc2869_ARAP_SECURITY_TYPE.
(** rfc2869.rs:226-228 *)
Definition rfc2869_add_arap_security (p : packet) (value : N) : packet :=
  packet_add p (avp_from_u32 rfc2869_ARAP_SECURITY_TYPE value).
(** rfc2869.rs:232-234 *)
Definition rfc2869_lookup_arap_security (p : packet) : option (res avp_error N) :=
  option_map avp_encode_u32 (packet_lookup p rfc2869_ARAP_SECURITY_TYPE).
(** rfc2869.rs:236-242 *)
Definition rfc2869_lookup_all_arap_security (p : packet) : res avp_error (list N) :=
  collect avp_encode_u32 (packet_lookup_all p rfc2869_ARAP_SECURITY_TYPE).
(** rfc2869.rs:244 *)
Definition rfc2869_ARAP_SECURITY_DATA_TYPE : byte := n2b 74.
(** rfc2869.rs:246-248 *)
Definition rfc2869_delete_arap_security_data (p : packet) : packet := packet_delete p rfc2869_ARAP_SECURITY_DATA_TYPE.
(** rfc2869.rs:250-252 *)
Definition rfc2869_add_arap_security_data (p : packet) (value : bytes) : packet :=
  packet_add p (avp_from_string rfc2869_ARAP_SECURITY_DATA_TYPE value).
(** rfc2869.rs:256-260 *)
Definition rfc2869_lookup_arap_security_data (p : packet) : option (res avp_error bytes) :=
  option_map avp_encode_string (packet_lookup p rfc2869_ARAP_SECURITY_DATA_TYPE).
(** rfc2869.rs:262-268 *)
Definition rfc2869_lookup_all_arap_security_data (p : packet) : res avp_error (list bytes) :=
  collect avp_encode_string (packet_lookup_all p rfc2869_ARAP_SECURITY_DATA_TYPE).
(** rfc2869.rs:270 *)
Definition rfc2869_PASSWORD_RETRY_TYPE : byte := n2b 75.
(** rfc2869.rs:272-274 *)
Definition rfc2869_delete_password_retry (p : packet) : packet := packet_delete p rfc2869_PASSWORD_RETRY_TYPE.
(** rfc2869.rs:276-278 *)
Definition rfc2869_add_password_retry (p : packet) (value : N) : packet :=
  packet_add p (avp_from_u32 rfc2869_PASSWORD_RETRY_TYPE value).
(** rfc2869.rs:282-284 *)
Definition rfc2869_lookup_password_retry (p : packet) : option (res avp_error N) :=
  option_map avp_encode_u32 (packet_lookup p rfc2869_PASSWORD_RETRY_TYPE).
(** rfc2869.rs:286-292 *)
Definition rfc2869_lookup_all_password_retry (p : packet) : res avp_error (list N) :=
  collect avp_encode_u32 (packet_lookup_all p rfc2869_PASSWORD_RETRY_TYPE).
(** rfc2869.rs:294 *)
Definition rfc2869_PROMPT_TYPE : byte := n2b 76.
(** rfc2869.rs:296-298 *)
Definition rfc2869_delete_prompt (p : packet) : packet := packet_delete p rfc2869_PROMPT_TYPE.
(** rfc2869.rs:300-302 *)
Definition rfc2869_add_prompt (p : packet) (value : N) : packet :=
  packet_add p (avp_from_u32 rfc2869_PROMPT_TYPE value).
(** rfc2869.rs:306-310 *)
Definition rfc2869_lookup_prompt (p : packet) : option (res avp_error N) :=
  option_map (fun v => do n <- avp_encode_u32 v; Ok n) (packet_lookup p rfc2869_PROMPT_TYPE).
(** rfc2869.rs:312-318 *)
Definition rfc2869_lookup_all_prompt (p : packet) : res avp_error (list N) :=
  collect (fun v => do n <- avp_encode_u32 v; Ok n) (packet_lookup_all p rfc2869_PROMPT_TYPE).
(** rfc2869.rs:320 *)
Definition rfc2869_CONNECT_INFO_TYPE : byte := n2b 77.
(** rfc2869.rs:322-324 *)
Definition rfc2869_delete_connect_info (p : packet) : packet := packet_delete p rfc2869_CONNECT_INFO_TYPE.
(** rfc2869.rs:326-328 *)
Definition rfc2869_add_connect_info (p : packet) (value : bytes) : packet :=
  packet_add p (avp_from_string rfc2869_CONNECT_INFO_TYPE value).
(** rfc2869.rs:332-334 *)
Definition rfc2869_lookup_connect_info (p : packet) : option (res avp_error bytes) :=
  option_map avp_encode_string (packet_lookup p rfc2869_CONNECT_INFO_TYPE).
(** rfc2869.rs:336-342 *)
Definition rfc2869_lookup_all_connect_info (p : packet) : res avp_error (list bytes) :=
  collect avp_encode_string (packet_lookup_all p rfc2869_CONNECT_INFO_TYPE).
(** rfc2869.rs:344 *)
Definition rfc2869_CONFIGURATION_TOKEN_TYPE : byte := n2b 78.
(** rfc2869.rs:346-348 *)
Definition rfc2869_delete_configuration_token (p : packet) : packet := packet_delete p rfc2869_CONFIGURATION_TOKEN_TYPE.
(** rfc2869.rs:350-352 *)
Definition rfc2869_add_configuration_token (p : packet) (value : bytes) : packet :=
  packet_add p (avp_from_string rfc2869_CONFIGURATION_TOKEN_TYPE value).
(** rfc2869.rs:356-360 *)
Definition rfc2869_lookup_configuration_token (p : packet) : option (res avp_error bytes) :=
  option_map avp_encode_string (packet_lookup p rfc2869_CONFIGURATION_TOKEN_TYPE).
(** rfc2869.rs:362-368 *)
Definition rfc2869_lookup_all_configuration_token (p : packet) : res avp_error (list bytes) :=
  collect avp_encode_string (packet_lookup_all p rfc2869_CONFIGURATION_TOKEN_TYPE).
(** rfc2869.rs:370 *)
Definition rfc2869_EAP_MESSAGE_TYPE : byte := n2b 79.
(** rfc2869.rs:372-374 *)
Definition rfc2869_delete_eap_message (p : packet) : packet := packet_delete p rfc2869_EAP_MESSAGE_TYPE.
(** rfc2869.rs:375-382 *)
Definition rfc2869_add_eap_message (p : packet) (value : bytes) : packet :=
  packet_extend p (map (fun chunk => avp_from_bytes rfc2869_EAP_MESSAGE_TYPE chunk) (chunks 253 value)).
(** rfc2869.rs:383-392 *)
Definition rfc2869_lookup_eap_message (p : packet) : option bytes :=
  let avps := packet_lookup_all p rfc2869_EAP_MESSAGE_TYPE in
  if is_nil avps then None
  else Some (fold_left (fun acc v => acc ++ avp_encode_bytes v) avps []).
(** rfc2869.rs:394 *)
Definition rfc2869_MESSAGE_AUTHENTICATOR_TYPE : byte := n2b 80.
(** rfc2869.rs:396-398 *)
Definition rfc2869_delete_message_authenticator (p : packet) : packet := packet_delete p rfc2869_MESSAGE_AUTHENTICATOR_TYPE.
(** rfc2869.rs:400-402 *)
Definition rfc2869_add_message_authenticator (p : packet) (value : bytes) : packet :=
  packet_add p (avp_from_bytes rfc2869_MESSAGE_AUTHENTICATOR_TYPE value).
(** rfc2869.rs:406-410 *)
Definition rfc2869_lookup_message_authenticator (p : packet) : option bytes :=
  option_map avp_encode_bytes (packet_lookup p rfc2869_MESSAGE_AUTHENTICATOR_TYPE).
(** rfc2869.rs:412-418 *)
Definition rfc2869_lookup_all_message_authenticator (p : packet) : list bytes :=
  collect_bytes (packet_lookup_all p rfc2869_MESSAGE_AUTHENTICATOR_TYPE).
(** rfc2869.rs:420 *)
Definition rfc2869_ARAP_CHALLENGE_RESPONSE_TYPE : byte := n2b 84.
(** rfc2869.rs:422-424 *)
Definition rfc2869_delete_arap_challenge_response (p : packet) : packet := packet_delete p rfc2869_ARAP_CHALLENGE_RESPONSE_TYPE.
(** rfc2869.rs:426-435 *)
Definition rfc2869_add_arap_challenge_response (p : packet) (value : bytes) : packet * res avp_error unit :=
  if negb (len value =? 8) then (p, Err (InvalidAttributeLengthError "8 bytes" (len value)))
  else (packet_add p (avp_from_bytes rfc2869_ARAP_CHALLENGE_RESPONSE_TYPE value), Ok tt).
(** rfc2869.rs:439-443 *)
Definition rfc2869_lookup_arap_challenge_response (p : packet) : option bytes :=
  option_map avp_encode_bytes (packet_lookup p rfc2869_ARAP_CHALLENGE_RESPONSE_TYPE).
(** rfc2869.rs:445-451 *)
Definition rfc2869_lookup_all_arap_challenge_response (p : packet) : list bytes :=
  collect_bytes (packet_lookup_all p rfc2869_ARAP_CHALLENGE_RESPONSE_TYPE).
(** rfc2869.rs:453 *)
Definition rfc2869_ACCT_INTERIM_INTERVAL_TYPE : byte := n2b 85.
(** rfc2869.rs:455-457 *)
Definition rfc2869_delete_acct_interim_interval (p : packet) : packet := packet_delete p rfc2869_ACCT_INTERIM_INTERVAL_TYPE.
(** rfc2869.rs:459-461 *)
Definition rfc2869_add_acct_interim_interval (p : packet) (value : N) : packet :=
  packet_add p (avp_from_u32 rfc2869_ACCT_INTERIM_INTERVAL_TYPE value).
(** rfc2869.rs:465-469 *)
Definition rfc2869_lookup_acct_interim_interval (p : packet) : option (res avp_error N) :=
  option_map avp_encode_u32 (packet_lookup p rfc2869_ACCT_INTERIM_INTERVAL_TYPE).
(** rfc2869.rs:471-477 *)
Definition rfc2869_lookup_all_acct_interim_interval (p : packet) : res avp_error (list N) :=
  collect avp_encode_u32 (packet_lookup_all p rfc2869_ACCT_INTERIM_INTERVAL_TYPE).
(** rfc2869.rs:479 *)
Definition rfc2869_NAS_PORT_ID_TYPE : byte := n2b 87.
(** rfc2869.rs:481-483 *)
Definition rfc2869_delete_nas_port_id (p : packet) : packet := packet_delete p rfc2869_NAS_PORT_ID_TYPE.
(** rfc2869.rs:485-487 *)
Definition rfc2869_add_nas_port_id (p : packet) (value : bytes) : packet :=
  packet_add p (avp_from_string rfc2869_NAS_PORT_ID_TYPE value).
(** rfc2869.rs:491-493 *)
Definition rfc2869_lookup_nas_port_id (p : packet) : option (res avp_error bytes) :=
  option_map avp_encode_string (packet_lookup p rfc2869_NAS_PORT_ID_TYPE).
(** rfc2869.rs:495-501 *)
Definition rfc2869_lookup_all_nas_port_id (p : packet) : res avp_error (list bytes) :=
  collect avp_encode_string (packet_lookup_all p rfc2869_NAS_PORT_ID_TYPE).
(** rfc2869.rs:503 *)
Definition rfc2869_FRAMED_POOL_TYPE : byte := n2b 88.
(** rfc2869.rs:505-507 *)
Definition rfc2869_delete_framed_pool (p : packet) : packet := packet_delete p rfc2869_FRAMED_POOL_TYPE.
(** rfc2869.rs:509-511 *)
Definition rfc2869_add_framed_pool (p : packet) (value : bytes) : packet :=
  packet_add p (avp_from_string rfc2869_FRAMED_POOL_TYPE value).
(** rfc2869.rs:515-517 *)
Definition rfc2869_lookup_framed_pool (p : packet) : option (res avp_error bytes) :=
  option_map avp_encode_string (packet_lookup p rfc2869_FRAMED_POOL_TYPE).
(** rfc2869.rs:519-525 *)
Definition rfc2869_lookup_all_framed_pool (p : packet) : res avp_error (list bytes) :=
  collect avp_encode_string (packet_lookup_all p rfc2869_FRAMED_POOL_TYPE).
(** ** radius/src/core/rfc3162.rs *)
(** rfc3162.rs:30 *)
Definition rfc3162_NAS_IPV6_ADDRESS_TYPE : byte := n2b 95.
(** rfc3162.rs:32-34 *)
Definition rfc3162_delete_nas_ipv6_address (p : packet) : packet := packet_delete p rfc3162_NAS_IPV6_ADDRESS_TYPE.
(** rfc3162.rs:36-38 *)
Definition rfc3162_add_nas_ipv6_address (p : packet) (value : ipv6) : packet :=
  packet_add p (avp_from_ipv6 rfc3162_NAS_IPV6_ADDRESS_TYPE value).
(** rfc3162.rs:42-46 *)
Definition rfc3162_lookup_nas_ipv6_address (p : packet) : option (res avp_error ipv6) :=
  option_map avp_encode_ipv6 (packet_lookup p rfc3162_NAS_IPV6_ADDRESS_TYPE).
(** rfc3162.rs:48-54 *)
Definition rfc3162_lookup_all_nas_ipv6_address (p : packet) : res avp_error (list ipv6) :=
  collect avp_encode_ipv6 (packet_lookup_all p rfc3162_NAS_IPV6_ADDRESS_TYPE).
(** rfc3162.rs:56 *)
Definition rfc3162_FRAMED_INTERFACE_ID_TYPE : byte := n2b 96.
(** rfc3162.rs:58-60 *)
Definition rfc3162_delete_framed_interface_id (p : packet) : packet := packet_delete p rfc3162_FRAMED_INTERFACE_ID_TYPE.
(** rfc3162.rs:62-71 *)
Definition rfc3162_add_framed_interface_id (p : packet) (value : bytes) : packet * res avp_error unit :=
  if negb (len value =? 8) then (p, Err (InvalidAttributeLengthError "8 bytes" (len value)))
  else (packet_add p (avp_from_bytes rfc3162_FRAMED_INTERFACE_ID_TYPE value), Ok tt).
(** rfc3162.rs:75-79 *)
Definition rfc3162_lookup_framed_interface_id (p : packet) : option bytes :=
  option_map avp_encode_bytes (packet_lookup p rfc3162_FRAMED_INTERFACE_ID_TYPE).
(** rfc3162.rs:81-87 *)
Definition rfc3162_lookup_all_framed_interface_id (p : packet) : list bytes :=
  collect_bytes (packet_lookup_all p rfc3162_FRAMED_INTERFACE_ID_TYPE).
(** rfc3162.rs:89 *)
Definition rfc3162_FRAMED_IPV6_PREFIX_TYPE : byte := n2b 97.
(** rfc3162.rs:91-93 *)
Definition rfc3162_delete_framed_ipv6_prefix (p : packet) : packet := packet_delete p rfc3162_FRAMED_IPV6_PREFIX_TYPE.
(** rfc3162.rs:95-98 *)
Definition rfc3162_add_framed_ipv6_prefix (p : packet) (value : bytes) : packet * res avp_error unit :=
  try_add p (avp_from_ipv6_prefix rfc3162_FRAMED_IPV6_PREFIX_TYPE value).
(** rfc3162.rs:102-106 *)
Definition rfc3162_lookup_framed_ipv6_prefix (p : packet) : option (res avp_error bytes) :=
  option_map avp_encode_ipv6_prefix (packet_lookup p rfc3162_FRAMED_IPV6_PREFIX_TYPE).
(** rfc3162.rs:108-114 *)
Definition rfc3162_lookup_all_framed_ipv6_prefix (p : packet) : res avp_error (list bytes) :=
  collect avp_encode_ipv6_prefix (packet_lookup_all p rfc3162_FRAMED_IPV6_PREFIX_TYPE).
(** rfc3162.rs:116 *)
Definition rfc3162_LOGIN_IPV6_HOST_TYPE : byte := n2b 98.
(** rfc3162.rs:118-120 *)
Definition rfc3162_delete_login_ipv6_host (p : packet) : packet := packet_delete p rfc3162_LOGIN_IPV6_HOST_TYPE.
(** rfc3162.rs:122-124 *)
Definition rfc3162_add_login_ipv6_host (p : packet) (value : ipv6) : packet :=
  packet_add p (avp_from_ipv6 rfc3162_LOGIN_IPV6_HOST_TYPE value).
(** rfc3162.rs:128-130 *)
Definition rfc3162_lookup_login_ipv6_host (p : packet) : option (res avp_error ipv6) :=
  option_map avp_encode_ipv6 (packet_lookup p rfc3162_LOGIN_IPV6_HOST_TYPE).
(** rfc3162.rs:132-138 *)
Definition rfc3162_lookup_all_login_ipv6_host (p : packet) : res avp_error (list ipv6) :=
  collect avp_encode_ipv6 (packet_lookup_all p rfc3162_LOGIN_IPV6_HOST_TYPE).
(** rfc3162.rs:140 *)
Definition rfc3162_FRAMED_IPV6_ROUTE_TYPE : byte := n2b 99.
(** rfc3162.rs:142-144 *)
Definition rfc3162_delete_framed_ipv6_route (p : packet) : packet := packet_delete p rfc3162_FRAMED_IPV6_ROUTE_TYPE.
(** rfc3162.rs:146-148 *)
Definition rfc3162_add_framed_ipv6_route (p : packet) (value : bytes) : packet :=
  packet_add p (avp_from_string rfc3162_FRAMED_IPV6_ROUTE_TYPE value).
(** rfc3162.rs:152-156 *)
Definition rfc3162_lookup_framed_ipv6_route (p : packet) : option (res avp_error bytes) :=
  option_map avp_encode_string (packet_lookup p rfc3162_FRAMED_IPV6_ROUTE_TYPE).
(** rfc3162.rs:158-164 *)
Definition rfc3162_lookup_all_framed_ipv6_route (p : packet) : res avp_error (list bytes) :=
  collect avp_encode_string (packet_lookup_all p rfc3162_FRAMED_IPV6_ROUTE_TYPE).
(** rfc3162.rs:166 *)
Definition rfc3162_FRAMED_IPV6_POOL_TYPE : byte := n2b 100.
(** rfc3162.rs:168-170 *)
Definition rfc3162_delete_framed_ipv6_pool (p : packet) : packet := packet_delete p rfc3162_FRAMED_IPV6_POOL_TYPE.
(** rfc3162.rs:172-174 *)
Definition rfc3162_add_framed_ipv6_pool (p : packet) (value : bytes) : packet :=
  packet_add p (avp_from_string rfc3162_FRAMED_IPV6_POOL_TYPE value).
(** rfc3162.rs:178-182 *)
Definition rfc3162_lookup_framed_ipv6_pool (p : packet) : option (res avp_error bytes) :=
  option_map avp_encode_string (packet_lookup p rfc3162_FRAMED_IPV6_POOL_TYPE).
(** rfc3162.rs:184-190 *)
Definition rfc3162_lookup_all_framed_ipv6_pool (p : packet) : res avp_error (list bytes) :=
  collect avp_encode_string (packet_lookup_all p rfc3162_FRAMED_IPV6_POOL_TYPE).
(** ** radius/src/core/rfc3576.rs *)
(** rfc3576.rs:47 *)
Definition rfc3576_ERROR_CAUSE_TYPE : byte := n2b 101.
(** rfc3576.rs:49-51 *)
Definition rfc3576_delete_error_cause (p : packet) : packet := packet_delete p rfc3576_ERROR_CAUSE_TYPE.
(** rfc3576.rs:53-55 *)
Definition rfc3576_add_error_cause (p : packet) (value : N) : packet :=
  packet_add p (avp_from_u32 rfc3576_ERROR_CAUSE_TYPE value).
(** rfc3576.rs:59-63 *)
Definition rfc3576_lookup_error_cause (p : packet) : option (res avp_error N) :=
  option_map (fun v => do n <- avp_encode_u32 v; Ok n) (packet_lookup p rfc3576_ERROR_CAUSE_TYPE).
(** rfc3576.rs:65-71 *)
Definition rfc3576_lookup_all_error_cause (p : packet) : res avp_error (list N) :=
  collect (fun v => do n <- avp_encode_u32 v; Ok n) (packet_lookup_all p rfc3576_ERROR_CAUSE_TYPE).
(** ** radius/src/core/rfc3580.rs *)
(** ** radius/src/core/rfc4072.rs *)
(** rfc4072.rs:24 *)
Definition rfc4072_EAP_KEY_NAME_TYPE : byte := n2b 102.
(** rfc4072.rs:26-28 *)
Definition rfc4072_delete_eap_key_name (p : packet) : packet := packet_delete p rfc4072_EAP_KEY_NAME_TYPE.
(** rfc4072.rs:30-32 *)
Definition rfc4072_add_eap_key_name (p : packet) (value : bytes) : packet :=
  packet_add p (avp_from_bytes rfc4072_EAP_KEY_NAME_TYPE value).
(** rfc4072.rs:36-38 *)
Definition rfc4072_lookup_eap_key_name (p : packet) : option bytes :=
  option_map avp_encode_bytes (packet_lookup p rfc4072_EAP_KEY_NAME_TYPE).
(** rfc4072.rs:40-46 *)
Definition rfc4072_lookup_all_eap_key_name (p : packet) : list bytes :=
  collect_bytes (packet_lookup_all p rfc4072_EAP_KEY_NAME_TYPE).
(** ** radius/src/core/rfc4372.rs *)
(** rfc4372.rs:23 *)
Definition rfc4372_CHARGEABLE_USER_IDENTITY_TYPE : byte := n2b 89.
(** rfc4372.rs:25-27 *)
Definition rfc4372_delete_chargeable_user_identity (p : packet) : packet := packet_delete p rfc4372_CHARGEABLE_USER_IDENTITY_TYPE.
(** rfc4372.rs:29-31 *)
Definition rfc4372_add_chargeable_user_identity (p : packet) (value : bytes) : packet :=
  packet_add p (avp_from_bytes rfc4372_CHARGEABLE_USER_IDENTITY_TYPE value).
(** rfc4372.rs:35-39 *)
Definition rfc4372_lookup_chargeable_user_identity (p : packet) : option bytes :=
  option_map avp_encode_bytes (packet_lookup p rfc4372_CHARGEABLE_USER_IDENTITY_TYPE).
(** rfc4372.rs:41-47 *)
Definition rfc4372_lookup_all_chargeable_user_identity (p : packet) : list bytes :=
  collect_bytes (packet_lookup_all p rfc4372_CHARGEABLE_USER_IDENTITY_TYPE).
(** ** radius/src/core/rfc4603.rs *)
(** ** radius/src/core/rfc4675.rs *)
(** rfc4675.rs:43 *)
Definition rfc4675_EGRESS_VLANID_TYPE : byte := n2b 56.
(** rfc4675.rs:45-47 *)
Definition rfc4675_delete_egress_vlanid (p : packet) : packet := packet_delete p rfc4675_EGRESS_VLANID_TYPE.
(** rfc4675.rs:49-51 *)
Definition rfc4675_add_egress_vlanid (p : packet) (value : N) : packet :=
  packet_add p (avp_from_u32 rfc4675_EGRESS_VLANID_TYPE value).
(** rfc4675.rs:55-57 *)
Definition rfc4675_lookup_egress_vlanid (p : packet) : option (res avp_error N) :=
  option_map avp_encode_u32 (packet_lookup p rfc4675_EGRESS_VLANID_TYPE).
(** rfc4675.rs:59-65 *)
Definition rfc4675_lookup_all_egress_vlanid (p : packet) : res avp_error (list N) :=
  collect avp_encode_u32 (packet_lookup_all p rfc4675_EGRESS_VLANID_TYPE).
(** rfc4675.rs:67 *)
Definition rfc4675_INGRESS_FILTERS_TYPE : byte := n2b 57.
(** rfc4675.rs:69-71 *)
Definition rfc4675_delete_ingress_filters (p : packet) : packet := packet_delete p rfc4675_INGRESS_FILTERS_TYPE.
(** rfc4675.rs:73-75 *)
Definition rfc4675_add_ingress_filters (p : packet) (value : N) : packet :=
  packet_add p (avp_from_u32 rfc4675_INGRESS_FILTERS_TYPE value).
(** rfc4675.rs:79-83 *)
Definition rfc4675_lookup_ingress_filters (p : packet) : option (res avp_error N) :=
  option_map (fun v => do n <- avp_encode_u32 v; Ok n) (packet_lookup p rfc4675_INGRESS_FILTERS_TYPE).
(** rfc4675.rs:85-91 *)
Definition rfc4675_lookup_all_ingress_filters (p : packet) : res avp_error (list N) :=
  collect (fun v => do n <- avp_encode_u32 v; Ok n) (packet_lookup_all p rfc4675_INGRESS_FILTERS_TYPE).
(** rfc4675.rs:93 *)
Definition rfc4675_EGRESS_VLAN_NAME_TYPE : byte := n2b 58.
(** rfc4675.rs:95-97 *)
Definition rfc4675_delete_egress_vlan_name (p : packet) : packet := packet_delete p rfc4675_EGRESS_VLAN_NAME_TYPE.
(** rfc4675.rs:99-101 *)
Definition rfc4675_add_egress_vlan_name (p : packet) (value : bytes) : packet :=
  packet_add p (avp_from_string rfc4675_EGRESS_VLAN_NAME_TYPE value).
(** rfc4675.rs:105-109 *)
Definition rfc4675_lookup_egress_vlan_name (p : packet) : option (res avp_error bytes) :=
  option_map avp_encode_string (packet_lookup p rfc4675_EGRESS_VLAN_NAME_TYPE).
(** rfc4675.rs:111-117 *)
Definition rfc4675_lookup_all_egress_vlan_name (p : packet) : res avp_error (list bytes) :=
  collect avp_encode_string (packet_lookup_all p rfc4675_EGRESS_VLAN_NAME_TYPE).
(** rfc4675.rs:119 *)
Definition rfc4675_USER_PRIORITY_TABLE_TYPE : byte := n2b 59.
(** rfc4675.rs:121-123 *)
Definition rfc4675_delete_user_priority_table (p : packet) : packet := packet_delete p rfc4675_USER_PRIORITY_TABLE_TYPE.
(** rfc4675.rs:125-127 *)
Definition rfc4675_add_user_priority_table (p : packet) (value : bytes) : packet :=
  packet_add p (avp_from_bytes rfc4675_USER_PRIORITY_TABLE_TYPE value).
(** rfc4675.rs:131-135 *)
Definition rfc4675_lookup_user_priority_table (p : packet) : option bytes :=
  option_map avp_encode_bytes (packet_lookup p rfc4675_USER_PRIORITY_TABLE_TYPE).
(** rfc4675.rs:137-143 *)
Definition rfc4675_lookup_all_user_priority_table (p : packet) : list bytes :=
  collect_bytes (packet_lookup_all p rfc4675_USER_PRIORITY_TABLE_TYPE).
(** ** radius/src/core/rfc4818.rs *)
(** rfc4818.rs:26 *)
Definition rfc4818_DELEGATED_IPV6_PREFIX_TYPE : byte := n2b 123.
(** rfc4818.rs:28-30 *)
Definition rfc4818_delete_delegated_ipv6_prefix (p : packet) : packet := packet_delete p rfc4818_DELEGATED_IPV6_PREFIX_TYPE.
(** rfc4818.rs:32-35 *)
Definition rfc4818_add_delegated_ipv6_prefix (p : packet) (value : bytes) : packet * res avp_error unit :=
  try_add p (avp_from_ipv6_prefix rfc4818_DELEGATED_IPV6_PREFIX_TYPE value).
(** rfc4818.rs:39-43 *)
Definition rfc4818_lookup_delegated_ipv6_prefix (p : packet) : option (res avp_error bytes) :=
  option_map avp_encode_ipv6_prefix (packet_lookup p rfc4818_DELEGATED_IPV6_PREFIX_TYPE).
(** rfc4818.rs:45-51 *)
Definition rfc4818_lookup_all_delegated_ipv6_prefix (p : packet) : res avp_error (list bytes) :=
  collect avp_encode_ipv6_prefix (packet_lookup_all p rfc4818_DELEGATED_IPV6_PREFIX_TYPE).
(** ** radius/src/core/rfc4849.rs *)
(** rfc4849.rs:23 *)
Definition rfc4849_NAS_FILTER_RULE_TYPE : byte := n2b 92.
(** rfc4849.rs:25-27 *)
Definition rfc4849_delete_nas_filter_rule (p : packet) : packet := packet_delete p rfc4849_NAS_FILTER_RULE_TYPE.
(** rfc4849.rs:29-31 *)
Definition rfc4849_add_nas_filter_rule (p : packet) (value : bytes) : packet :=
  packet_add p (avp_from_string rfc4849_NAS_FILTER_RULE_TYPE value).
(** rfc4849.rs:35-39 *)
Definition rfc4849_lookup_nas_filter_rule (p : packet) : option (res avp_error bytes) :=
  option_map avp_encode_string (packet_lookup p rfc4849_NAS_FILTER_RULE_TYPE).
(** rfc4849.rs:41-47 *)
Definition rfc4849_lookup_all_nas_filter_rule (p : packet) : res avp_error (list bytes) :=
  collect avp_encode_string (packet_lookup_all p rfc4849_NAS_FILTER_RULE_TYPE).
(** ** radius/src/core/rfc5090.rs *)
(** rfc5090.rs:42 *)
Definition rfc5090_DIGEST_RESPONSE_TYPE : byte := n2b 103.
(** rfc5090.rs:44-46 *)
Definition rfc5090_delete_digest_response (p : packet) : packet := packet_delete p rfc5090_DIGEST_RESPONSE_TYPE.
(** rfc5090.rs:48-50 *)
Definition rfc5090_add_digest_response (p : packet) (value : bytes) : packet :=
  packet_add p (avp_from_string rfc5090_DIGEST_RESPONSE_TYPE value).
(** rfc5090.rs:54-58 *)
Definition rfc5090_lookup_digest_response (p : packet) : option (res avp_error bytes) :=
  option_map avp_encode_string (packet_lookup p rfc5090_DIGEST_RESPONSE_TYPE).
(** rfc5090.rs:60-66 *)
Definition rfc5090_lookup_all_digest_response (p : packet) : res avp_error (list bytes) :=
  collect avp_encode_string (packet_lookup_all p rfc5090_DIGEST_RESPONSE_TYPE).
(** rfc5090.rs:68 *)
Definition rfc5090_DIGEST_REALM_TYPE : byte := n2b 104.
(** rfc5090.rs:70-72 *)
Definition rfc5090_delete_digest_realm (p : packet) : packet := packet_delete p rfc5090_DIGEST_REALM_TYPE.
(** rfc5090.rs:74-76 *)
Definition rfc5090_add_digest_realm (p : packet) (value : bytes) : packet :=
  packet_add p (avp_from_string rfc5090_DIGEST_REALM_TYPE value).
(** rfc5090.rs:80-82 *)
Definition rfc5090_lookup_digest_realm (p : packet) : option (res avp_error bytes) :=
  option_map avp_encode_string (packet_lookup p rfc5090_DIGEST_REALM_TYPE).
(** rfc5090.rs:84-90 *)
Definition rfc5090_lookup_all_digest_realm (p : packet) : res avp_error (list bytes) :=
  collect avp_encode_string (packet_lookup_all p rfc5090_DIGEST_REALM_TYPE).
(** rfc5090.rs:92 *)
Definition rfc5090_DIGEST_NONCE_TYPE : byte := n2b 105.
(** rfc5090.rs:94-96 *)
Definition rfc5090_delete_digest_nonce (p : packet) : packet := packet_delete p rfc5090_DIGEST_NONCE_TYPE.
(** rfc5090.rs:98-100 *)
Definition rfc5090_add_digest_nonce (p : packet) (value : bytes) : packet :=
  packet_add p (avp_from_string rfc5090_DIGEST_NONCE_TYPE value).
(** rfc5090.rs:104-106 *)
Definition rfc5090_lookup_digest_nonce (p : packet) : option (res avp_error bytes) :=
  option_map avp_encode_string (packet_lookup p rfc5090_DIGEST_NONCE_TYPE).
(** rfc5090.rs:108-114 *)
Definition rfc5090_lookup_all_digest_nonce (p : packet) : res avp_error (list bytes) :=
  collect avp_encode_string (packet_lookup_all p rfc5090_DIGEST_NONCE_TYPE).
(** rfc5090.rs:116 *)
Definition rfc5090_DIGEST_RESPONSE_AUTH_TYPE : byte := n2b 106.
(** rfc5090.rs:118-120 *)
Definition rfc5090_delete_digest_response_auth (p : packet) : packet := packet_delete p rfc5090_DIGEST_RESPONSE_AUTH_TYPE.
(** rfc5090.rs:122-124 *)
Definition rfc5090_add_digest_response_auth (p : packet) (value : bytes) : packet :=
  packet_add p (avp_from_string rfc5090_DIGEST_RESPONSE_AUTH_TYPE value).
(** rfc5090.rs:128-132 *)
Definition rfc5090_lookup_digest_response_auth (p : packet) : option (res avp_error bytes) :=
  option_map avp_encode_string (packet_lookup p rfc5090_DIGEST_RESPONSE_AUTH_TYPE).
(** rfc5090.rs:134-140 *)
Definition rfc5090_lookup_all_digest_response_auth (p : packet) : res avp_error (list bytes) :=
  collect avp_encode_string (packet_lookup_all p rfc5090_DIGEST_RESPONSE_AUTH_TYPE).
(** rfc5090.rs:142 *)
Definition rfc5090_DIGEST_NEXTNONCE_TYPE : byte := n2b 107.
(** rfc5090.rs:144-146 *)
Definition rfc5090_delete_digest_nextnonce (p : packet) : packet := packet_delete p rfc5090_DIGEST_NEXTNONCE_TYPE.
(** rfc5090.rs:148-150 *)
Definition rfc5090_add_digest_nextnonce (p : packet) (value : bytes) : packet :=
  packet_add p (avp_from_string rfc5090_DIGEST_NEXTNONCE_TYPE value).
(** rfc5090.rs:154-158 *)
Definition rfc5090_lookup_digest_nextnonce (p : packet) : option (res avp_error bytes) :=
  option_map avp_encode_string (packet_lookup p rfc5090_DIGEST_NEXTNONCE_TYPE).
(** rfc5090.rs:160-166 *)
Definition rfc5090_lookup_all_digest_nextnonce (p : packet) : res avp_error (list bytes) :=
  collect avp_encode_string (packet_lookup_all p rfc5090_DIGEST_NEXTNONCE_TYPE).
(** rfc5090.rs:168 *)
Definition rfc5090_DIGEST_METHOD_TYPE : byte := n2b 108.
(** rfc5090.rs:170-172 *)
Definition rfc5090_delete_digest_method (p : packet) : packet := packet_delete p rfc5090_DIGEST_METHOD_TYPE.
(** rfc5090.rs:174-176 *)
Definition rfc5090_add_digest_method (p : packet) (value : bytes) : packet :=
  packet_add p (avp_from_string rfc5090_DIGEST_METHOD_TYPE value).
(** rfc5090.rs:180-182 *)
Definition rfc5090_lookup_digest_method (p : packet) : option (res avp_error bytes) :=
  option_map avp_encode_string (packet_lookup p rfc5090_DIGEST_METHOD_TYPE).
(** rfc5090.rs:184-190 *)
Definition rfc5090_lookup_all_digest_method (p : packet) : res avp_error (list bytes) :=
  collect avp_encode_string (packet_lookup_all p rfc5090_DIGEST_METHOD_TYPE).
(** rfc5090.rs:192 *)
Definition rfc5090_DIGEST_URI_TYPE : byte := n2b 109.
(** rfc5090.rs:194-196 *)
Definition rfc5090_delete_digest_uri (p : packet) : packet := packet_delete p rfc5090_DIGEST_URI_TYPE.
(** rfc5090.rs:198-200 *)
Definition rfc5090_add_digest_uri (p : packet) (value : bytes) : packet :=
  packet_add p (avp_from_string rfc5090_DIGEST_URI_TYPE value).
(** rfc5090.rs:204-206 *)
Definition rfc5090_lookup_digest_uri (p : packet) : option (res avp_error bytes) :=
  option_map avp_encode_string (packet_lookup p rfc5090_DIGEST_URI_TYPE).
(** rfc5090.rs:208-214 *)
Definition rfc5090_lookup_all_digest_uri (p : packet) : res avp_error (list bytes) :=
  collect avp_encode_string (packet_lookup_all p rfc5090_DIGEST_URI_TYPE).
(** rfc5090.rs:216 *)
Definition rfc5090_DIGEST_QOP_TYPE : byte := n2b 110.
(** rfc5090.rs:218-220 *)
Definition rfc5090_delete_digest_qop (p : packet) : packet := packet_delete p rfc5090_DIGEST_QOP_TYPE.
(** rfc5090.rs:222-224 *)
Definition rfc5090_add_digest_qop (p : packet) (value : bytes) : packet :=
  packet_add p (avp_from_string rfc5090_DIGEST_QOP_TYPE value).
(** rfc5090.rs:228-230 *)
Definition rfc5090_lookup_digest_qop (p : packet) : option (res avp_error bytes) :=
  option_map avp_encode_string (packet_lookup p rfc5090_DIGEST_QOP_TYPE).
(** rfc5090.rs:232-238 *)
Definition rfc5090_lookup_all_digest_qop (p : packet) : res avp_error (list bytes) :=
  collect avp_encode_string (packet_lookup_all p rfc5090_DIGEST_QOP_TYPE).
(** rfc5090.rs:240 *)
Definition rfc5090_DIGEST_ALGORITHM_TYPE : byte := n2b 111.
(** rfc5090.rs:242-244 *)
Definition rfc5090_delete_digest_algorithm (p : packet) : packet := packet_delete p rfc5090_DIGEST_ALGORITHM_TYPE.
(** rfc5090.rs:246-248 *)
Definition rfc5090_add_digest_algorithm (p : packet) (value : bytes) : packet :=
  packet_add p (avp_from_string rfc5090_DIGEST_ALGORITHM_TYPE value).
(** rfc5090.rs:252-256 *)
Definition rfc5090_lookup_digest_algorithm (p : packet) : option (res avp_error bytes) :=
  option_map avp_encode_string (packet_lookup p rfc5090_DIGEST_ALGORITHM_TYPE).
(** rfc5090.rs:258-264 *)
Definition rfc5090_lookup_all_digest_algorithm (p : packet) : res avp_error (list bytes) :=
  collect avp_encode_string (packet_lookup_all p rfc5090_DIGEST_ALGORITHM_TYPE).
(** rfc5090.rs:266 *)
Definition rfc5090_DIGEST_ENTITY_BODY_HASH_TYPE : byte := n2b 112.
(** rfc5090.rs:268-270 *)
Definition rfc5090_delete_digest_entity_body_hash (p : packet) : packet := packet_delete p rfc5090_DIGEST_ENTITY_BODY_HASH_TYPE.
(** rfc5090.rs:272-274 *)
Definition rfc5090_add_digest_entity_body_hash (p : packet) (value : bytes) : packet :=
  packet_add p (avp_from_string rfc5090_DIGEST_ENTITY_BODY_HASH_TYPE value).
(** rfc5090.rs:278-282 *)
Definition rfc5090_lookup_digest_entity_body_hash (p : packet) : option (res avp_error bytes) :=
  option_map avp_encode_string (packet_lookup p rfc5090_DIGEST_ENTITY_BODY_HASH_TYPE).
(** rfc5090.rs:284-290 *)
Definition rfc5090_lookup_all_digest_entity_body_hash (p : packet) : res avp_error (list bytes) :=
  collect avp_encode_string (packet_lookup_all p rfc5090_DIGEST_ENTITY_BODY_HASH_TYPE).
(** rfc5090.rs:292 *)
Definition rfc5090_DIGEST_C_NONCE_TYPE : byte := n2b 113.
(** rfc5090.rs:294-296 *)
Definition rfc5090_delete_digest_c_nonce (p : packet) : packet := packet_delete p rfc5090_DIGEST_C_NONCE_TYPE.
(** rfc5090.rs:298-300 *)
Definition rfc5090_add_digest_c_nonce (p : packet) (value : bytes) : packet :=
  packet_add p (avp_from_string rfc5090_DIGEST_C_NONCE_TYPE value).
(** rfc5090.rs:304-308 *)
Definition rfc5090_lookup_digest_c_nonce (p : packet) : option (res avp_error bytes) :=
  option_map avp_encode_string (packet_lookup p rfc5090_DIGEST_C_NONCE_TYPE).
(** rfc5090.rs:310-316 *)
Definition rfc5090_lookup_all_digest_c_nonce (p : packet) : res avp_error (list bytes) :=
  collect avp_encode_string (packet_lookup_all p rfc5090_DIGEST_C_NONCE_TYPE).
(** rfc5090.rs:318 *)
Definition rfc5090_DIGEST_NONCE_COUNT_TYPE : byte := n2b 114.
(** rfc5090.rs:320-322 *)
Definition rfc5090_delete_digest_nonce_count (p : packet) : packet := packet_delete p rfc5090_DIGEST_NONCE_COUNT_TYPE.
(** rfc5090.rs:324-326 *)
Definition rfc5090_add_digest_nonce_count (p : packet) (value : bytes) : packet :=
  packet_add p (avp_from_string rfc5090_DIGEST_NONCE_COUNT_TYPE value).
(** rfc5090.rs:330-334 *)
Definition rfc5090_lookup_digest_nonce_count (p : packet) : option (res avp_error bytes) :=
  option_map avp_encode_string (packet_lookup p rfc5090_DIGEST_NONCE_COUNT_TYPE).
(** rfc5090.rs:336-342 *)
Definition rfc5090_lookup_all_digest_nonce_count (p : packet) : res avp_error (list bytes) :=
  collect avp_encode_string (packet_lookup_all p rfc5090_DIGEST_NONCE_COUNT_TYPE).
(** rfc5090.rs:344 *)
Definition rfc5090_DIGEST_USERNAME_TYPE : byte := n2b 115.
(** rfc5090.rs:346-348 *)
Definition rfc5090_delete_digest_username (p : packet) : packet := packet_delete p rfc5090_DIGEST_USERNAME_TYPE.
(** rfc5090.rs:350-352 *)
Definition rfc5090_add_digest_username (p : packet) (value : bytes) : packet :=
  packet_add p (avp_from_string rfc5090_DIGEST_USERNAME_TYPE value).
(** rfc5090.rs:356-360 *)
Definition rfc5090_lookup_digest_username (p : packet) : option (res avp_error bytes) :=
  option_map avp_encode_string (packet_lookup p rfc5090_DIGEST_USERNAME_TYPE).
(** rfc5090.rs:362-368 *)
Definition rfc5090_lookup_all_digest_username (p : packet) : res avp_error (list bytes) :=
  collect avp_encode_string (packet_lookup_all p rfc5090_DIGEST_USERNAME_TYPE).
(** rfc5090.rs:370 *)
Definition rfc5090_DIGEST_OPAQUE_TYPE : byte := n2b 116.
(** rfc5090.rs:372-374 *)
Definition rfc5090_delete_digest_opaque (p : packet) : packet := packet_delete p rfc5090_DIGEST_OPAQUE_TYPE.
(** rfc5090.rs:376-378 *)
Definition rfc5090_add_digest_opaque (p : packet) (value : bytes) : packet :=
  packet_add p (avp_from_string rfc5090_DIGEST_OPAQUE_TYPE value).
(** rfc5090.rs:382-384 *)
Definition rfc5090_lookup_digest_opaque (p : packet) : option (res avp_error bytes) :=
  option_map avp_encode_string (packet_lookup p rfc5090_DIGEST_OPAQUE_TYPE).
(** rfc5090.rs:386-392 *)
Definition rfc5090_lookup_all_digest_opaque (p : packet) : res avp_error (list bytes) :=
  collect avp_encode_string (packet_lookup_all p rfc5090_DIGEST_OPAQUE_TYPE).
(** rfc5090.rs:394 *)
Definition rfc5090_DIGEST_AUTH_PARAM_TYPE : byte := n2b 117.
(** rfc5090.rs:396-398 *)
Definition rfc5090_delete_digest_auth_param (p : packet) : packet := packet_delete p rfc5090_DIGEST_AUTH_PARAM_TYPE.
(** rfc5090.rs:400-402 *)
Definition rfc5090_add_digest_auth_param (p : packet) (value : bytes) : packet :=
  packet_add p (avp_from_string rfc5090_DIGEST_AUTH_PARAM_TYPE value).
(** rfc5090.rs:406-410 *)
Definition rfc5090_lookup_digest_auth_param (p : packet) : option (res avp_error bytes) :=
  option_map avp_encode_string (packet_lookup p rfc5090_DIGEST_AUTH_PARAM_TYPE).
(** rfc5090.rs:412-418 *)
Definition rfc5090_lookup_all_digest_auth_param (p : packet) : res avp_error (list bytes) :=
  collect avp_encode_string (packet_lookup_all p rfc5090_DIGEST_AUTH_PARAM_TYPE).
(** rfc5090.rs:420 *)
Definition rfc5090_DIGEST_AKA_AUTS_TYPE : byte := n2b 118.
(** rfc5090.rs:422-424 *)
Definition rfc5090_delete_digest_aka_auts (p : packet) : packet := packet_delete p rfc5090_DIGEST_AKA_AUTS_TYPE.
(** rfc5090.rs:426-428 *)
Definition rfc5090_add_digest_aka_auts (p : packet) (value : bytes) : packet :=
  packet_add p (avp_from_string rfc5090_DIGEST_AKA_AUTS_TYPE value).
(** rfc5090.rs:432-436 *)
Definition rfc5090_lookup_digest_aka_auts (p : packet) : option (res avp_error bytes) :=
  option_map avp_encode_string (packet_lookup p rfc5090_DIGEST_AKA_AUTS_TYPE).
(** rfc5090.rs:438-444 *)
Definition rfc5090_lookup_all_digest_aka_auts (p : packet) : res avp_error (list bytes) :=
  collect avp_encode_string (packet_lookup_all p rfc5090_DIGEST_AKA_AUTS_TYPE).
(** rfc5090.rs:446 *)
Definition rfc5090_DIGEST_DOMAIN_TYPE : byte := n2b 119.
(** rfc5090.rs:448-450 *)
Definition rfc5090_delete_digest_domain (p : packet) : packet := packet_delete p rfc5090_DIGEST_DOMAIN_TYPE.
(** rfc5090.rs:452-454 *)
Definition rfc5090_add_digest_domain (p : packet) (value : bytes) : packet :=
  packet_add p (avp_from_string rfc5090_DIGEST_DOMAIN_TYPE value).
(** rfc5090.rs:458-460 *)
Definition rfc5090_lookup_digest_domain (p : packet) : option (res avp_error bytes) :=
  option_map avp_encode_string (packet_lookup p rfc5090_DIGEST_DOMAIN_TYPE).
(** rfc5090.rs:462-468 *)
Definition rfc5090_lookup_all_digest_domain (p : packet) : res avp_error (list bytes) :=
  collect avp_encode_string (packet_lookup_all p rfc5090_DIGEST_DOMAIN_TYPE).
(** rfc5090.rs:470 *)
Definition rfc5090_DIGEST_STALE_TYPE : byte := n2b 120.
(** rfc5090.rs:472-474 *)
Definition rfc5090_delete_digest_stale (p : packet) : packet := packet_delete p rfc5090_DIGEST_STALE_TYPE.
(** rfc5090.rs:476-478 *)
Definition rfc5090_add_digest_stale (p : packet) (value : bytes) : packet :=
  packet_add p (avp_from_string rfc5090_DIGEST_STALE_TYPE value).
(** rfc5090.rs:482-484 *)
Definition rfc5090_lookup_digest_stale (p : packet) : option (res avp_error bytes) :=
  option_map avp_encode_string (packet_lookup p rfc5090_DIGEST_STALE_TYPE).
(** rfc5090.rs:486-492 *)
Definition rfc5090_lookup_all_digest_stale (p : packet) : res avp_error (list bytes) :=
  collect avp_encode_string (packet_lookup_all p rfc5090_DIGEST_STALE_TYPE).
(** rfc5090.rs:494 *)
Definition rfc5090_DIGEST_HA1_TYPE : byte := n2b 121.
(** rfc5090.rs:496-498 *)
Definition rfc5090_delete_digest_ha1 (p : packet) : packet := packet_delete p rfc5090_DIGEST_HA1_TYPE.
(** rfc5090.rs:500-502 *)
Definition rfc5090_add_digest_ha1 (p : packet) (value : bytes) : packet :=
  packet_add p (avp_from_string rfc5090_DIGEST_HA1_TYPE value).
(** rfc5090.rs:506-508 *)
Definition rfc5090_lookup_digest_ha1 (p : packet) : option (res avp_error bytes) :=
  option_map avp_encode_string (packet_lookup p rfc5090_DIGEST_HA1_TYPE).
(** rfc5090.rs:510-516 *)
Definition rfc5090_lookup_all_digest_ha1 (p : packet) : res avp_error (list bytes) :=
  collect avp_encode_string (packet_lookup_all p rfc5090_DIGEST_HA1_TYPE).
(** rfc5090.rs:518 *)
Definition rfc5090_SIP_AOR_TYPE : byte := n2b 122.
(** rfc5090.rs:520-522 *)
Definition rfc5090_delete_sip_aor (p : packet) : packet := packet_delete p rfc5090_SIP_AOR_TYPE.
(** rfc5090.rs:524-526 *)
Definition rfc5090_add_sip_aor (p : packet) (value : bytes) : packet :=
  packet_add p (avp_from_string rfc5090_SIP_AOR_TYPE value).
(** rfc5090.rs:530-532 *)
Definition rfc5090_lookup_sip_aor (p : packet) : option (res avp_error bytes) :=
  option_map avp_encode_string (packet_lookup p rfc5090_SIP_AOR_TYPE).
(** rfc5090.rs:534-540 *)
Definition rfc5090_lookup_all_sip_aor (p : packet) : res avp_error (list bytes) :=
  collect avp_encode_string (packet_lookup_all p rfc5090_SIP_AOR_TYPE).
(** ** radius/src/core/rfc5176.rs *)
(** ** radius/src/core/rfc5607.rs *)
(** rfc5607.rs:47 *)
Definition rfc5607_FRAMED_MANAGEMENT_TYPE : byte := n2b 133.
(** rfc5607.rs:49-51 *)
Definition rfc5607_delete_framed_management (p : packet) : packet := packet_delete p rfc5607_FRAMED_MANAGEMENT_TYPE.
(** rfc5607.rs:53-55 *)
Definition rfc5607_add_framed_management (p : packet) (value : N) : packet :=
  packet_add p (avp_from_u32 rfc5607_FRAMED_MANAGEMENT_TYPE value).
(** rfc5607.rs:59-63 *)
Definition rfc5607_lookup_framed_management (p : packet) : option (res avp_error N) :=
  option_map (fun v => do n <- avp_encode_u32 v; Ok n) (packet_lookup p rfc5607_FRAMED_MANAGEMENT_TYPE).
(** rfc5607.rs:65-71 *)
Definition rfc5607_lookup_all_framed_management (p : packet) : res avp_error (list N) :=
  collect (fun v => do n <- avp_encode_u32 v; Ok n) (packet_lookup_all p rfc5607_FRAMED_MANAGEMENT_TYPE).
(** rfc5607.rs:73 *)
Definition rfc5607_MANAGEMENT_TRANSPORT_PROTECTION_TYPE : byte := n2b 134.
(** rfc5607.rs:75-77 *)
Definition rfc5607_delete_management_transport_protection (p : packet) : packet := packet_delete p rfc5607_MANAGEMENT_TRANSPORT_PROTECTION_TYPE.
(** rfc5607.rs:79-84 *)
Definition rfc5607_add_management_transport_protection (p : packet) (value : N) : packet :=
  packet_add p (avp_from_u32 rfc5607_MANAGEMENT_TRANSPORT_PROTECTION_TYPE value).
(** rfc5607.rs:88-94 *)
Definition rfc5607_lookup_management_transport_protection (p : packet) : option (res avp_error N) :=
  option_map (fun v => do n <- avp_encode_u32 v; Ok n) (packet_lookup p rfc5607_MANAGEMENT_TRANSPORT_PROTECTION_TYPE).
(** rfc5607.rs:96-104 *)
Definition rfc5607_lookup_all_management_transport_protection (p : packet) : res avp_error (list N) :=
  collect (fun v => do n <- avp_encode_u32 v; Ok n) (packet_lookup_all p rfc5607_MANAGEMENT_TRANSPORT_PROTECTION_TYPE).
(** rfc5607.rs:106 *)
Definition rfc5607_MANAGEMENT_POLICY_ID_TYPE : byte := n2b 135.
(** rfc5607.rs:108-110 *)
Definition rfc5607_delete_management_policy_id (p : packet) : packet := packet_delete p rfc5607_MANAGEMENT_POLICY_ID_TYPE.
(** rfc5607.rs:112-114 *)
Definition rfc5607_add_management_policy_id (p : packet) (value : bytes) : packet :=
  packet_add p (avp_from_string rfc5607_MANAGEMENT_POLICY_ID_TYPE value).
(** rfc5607.rs:118-122 *)
Definition rfc5607_lookup_management_policy_id (p : packet) : option (res avp_error bytes) :=
  option_map avp_encode_string (packet_lookup p rfc5607_MANAGEMENT_POLICY_ID_TYPE).
(** rfc5607.rs:124-130 *)
Definition rfc5607_lookup_all_management_policy_id (p : packet) : res avp_error (list bytes) :=
  collect avp_encode_string (packet_lookup_all p rfc5607_MANAGEMENT_POLICY_ID_TYPE).
(** rfc5607.rs:132 *)
Definition rfc5607_MANAGEMENT_PRIVILEGE_LEVEL_TYPE : byte := n2b 136.
(** rfc5607.rs:134-136 *)
Definition rfc5607_delete_management_privilege_level (p : packet) : packet := packet_delete p rfc5607_MANAGEMENT_PRIVILEGE_LEVEL_TYPE.
(** rfc5607.rs:138-140 *)
Definition rfc5607_add_management_privilege_level (p : packet) (value : N) : packet :=
  packet_add p (avp_from_u32 rfc5607_MANAGEMENT_PRIVILEGE_LEVEL_TYPE value).
(** rfc5607.rs:144-148 *)
Definition rfc5607_lookup_management_privilege_level (p : packet) : option (res avp_error N) :=
  option_map avp_encode_u32 (packet_lookup p rfc5607_MANAGEMENT_PRIVILEGE_LEVEL_TYPE).
(** rfc5607.rs:150-156 *)
Definition rfc5607_lookup_all_management_privilege_level (p : packet) : res avp_error (list N) :=
  collect avp_encode_u32 (packet_lookup_all p rfc5607_MANAGEMENT_PRIVILEGE_LEVEL_TYPE).
(** ** radius/src/core/rfc5904.rs *)
(** rfc5904.rs:37 *)
Definition rfc5904_PKM_SS_CERT_TYPE : byte := n2b 137.
(** rfc5904.rs:39-41 *)
Definition rfc5904_delete_pkm_ss_cert (p : packet) : packet := packet_delete p rfc5904_PKM_SS_CERT_TYPE.
(** rfc5904.rs:42-49 *)
Definition rfc5904_add_pkm_ss_cert (p : packet) (value : bytes) : packet :=
  packet_extend p (map (fun chunk => avp_from_bytes rfc5904_PKM_SS_CERT_TYPE chunk) (chunks 253 value)).
(** rfc5904.rs:50-59 *)
Definition rfc5904_lookup_pkm_ss_cert (p : packet) : option bytes :=
  let avps := packet_lookup_all p rfc5904_PKM_SS_CERT_TYPE in
  if is_nil avps then None
  else Some (fold_left (fun acc v => acc ++ avp_encode_bytes v) avps []).
(** rfc5904.rs:61 *)
Definition rfc5904_PKM_CA_CERT_TYPE : byte := n2b 138.
(** rfc5904.rs:63-65 *)
Definition rfc5904_delete_pkm_ca_cert (p : packet) : packet := packet_delete p rfc5904_PKM_CA_CERT_TYPE.
(** rfc5904.rs:66-73 *)
Definition rfc5904_add_pkm_ca_cert (p : packet) (value : bytes) : packet :=
  packet_extend p (map (fun chunk => avp_from_bytes rfc5904_PKM_CA_CERT_TYPE chunk) (chunks 253 value)).
(** rfc5904.rs:74-83 *)
Definition rfc5904_lookup_pkm_ca_cert (p : packet) : option bytes :=
  let avps := packet_lookup_all p rfc5904_PKM_CA_CERT_TYPE in
  if is_nil avps then None
  else Some (fold_left (fun acc v => acc ++ avp_encode_bytes v) avps []).
(** rfc5904.rs:85 *)
Definition rfc5904_PKM_CONFIG_SETTINGS_TYPE : byte := n2b 139.
(** rfc5904.rs:87-89 *)
Definition rfc5904_delete_pkm_config_settings (p : packet) : packet := packet_delete p rfc5904_PKM_CONFIG_SETTINGS_TYPE.
(** rfc5904.rs:91-93 *)
Definition rfc5904_add_pkm_config_settings (p : packet) (value : bytes) : packet :=
  packet_add p (avp_from_bytes rfc5904_PKM_CONFIG_SETTINGS_TYPE value).
(** rfc5904.rs:97-101 *)
Definition rfc5904_lookup_pkm_config_settings (p : packet) : option bytes :=
  option_map avp_encode_bytes (packet_lookup p rfc5904_PKM_CONFIG_SETTINGS_TYPE).
(** rfc5904.rs:103-109 *)
Definition rfc5904_lookup_all_pkm_config_settings (p : packet) : list bytes :=
  collect_bytes (packet_lookup_all p rfc5904_PKM_CONFIG_SETTINGS_TYPE).
(** rfc5904.rs:111 *)
Definition rfc5904_PKM_CRYPTOSUITE_LIST_TYPE : byte := n2b 140.
(** rfc5904.rs:113-115 *)
Definition rfc5904_delete_pkm_cryptosuite_list (p : packet) : packet := packet_delete p rfc5904_PKM_CRYPTOSUITE_LIST_TYPE.
(** rfc5904.rs:117-119 *)
Definition rfc5904_add_pkm_cryptosuite_list (p : packet) (value : bytes) : packet :=
  packet_add p (avp_from_bytes rfc5904_PKM_CRYPTOSUITE_LIST_TYPE value).
(** rfc5904.rs:123-127 *)
Definition rfc5904_lookup_pkm_cryptosuite_list (p : packet) : option bytes :=
  option_map avp_encode_bytes (packet_lookup p rfc5904_PKM_CRYPTOSUITE_LIST_TYPE).
(** rfc5904.rs:129-135 *)
Definition rfc5904_lookup_all_pkm_cryptosuite_list (p : packet) : list bytes :=
  collect_bytes (packet_lookup_all p rfc5904_PKM_CRYPTOSUITE_LIST_TYPE).
(** rfc5904.rs:137 *)
Definition rfc5904_PKM_SAID_TYPE : byte := n2b 141.
(** rfc5904.rs:139-141 *)
Definition rfc5904_delete_pkm_said (p : packet) : packet := packet_delete p rfc5904_PKM_SAID_TYPE.
(** rfc5904.rs:143-145 *)
Definition rfc5904_add_pkm_said (p : packet) (value : N) : packet :=
  packet_add p (avp_from_u16 rfc5904_PKM_SAID_TYPE value).
(** rfc5904.rs:149-151 *)
Definition rfc5904_lookup_pkm_said (p : packet) : option (res avp_error N) :=
  option_map avp_encode_u16 (packet_lookup p rfc5904_PKM_SAID_TYPE).
(** rfc5904.rs:153-159 *)
Definition rfc5904_lookup_all_pkm_said (p : packet) : res avp_error (list N) :=
  collect avp_encode_u16 (packet_lookup_all p rfc5904_PKM_SAID_TYPE).
(** rfc5904.rs:161 *)
Definition rfc5904_PKM_SA_DESCRIPTOR_TYPE : byte := n2b 142.
(** rfc5904.rs:163-165 *)
Definition rfc5904_delete_pkm_sa_descriptor (p : packet) : packet := packet_delete p rfc5904_PKM_SA_DESCRIPTOR_TYPE.
(** rfc5904.rs:167-169 *)
Definition rfc5904_add_pkm_sa_descriptor (p : packet) (value : bytes) : packet :=
  packet_add p (avp_from_bytes rfc5904_PKM_SA_DESCRIPTOR_TYPE value).
(** rfc5904.rs:173-177 *)
Definition rfc5904_lookup_pkm_sa_descriptor (p : packet) : option bytes :=
  option_map avp_encode_bytes (packet_lookup p rfc5904_PKM_SA_DESCRIPTOR_TYPE).
(** rfc5904.rs:179-185 *)
Definition rfc5904_lookup_all_pkm_sa_descriptor (p : packet) : list bytes :=
  collect_bytes (packet_lookup_all p rfc5904_PKM_SA_DESCRIPTOR_TYPE).
(** rfc5904.rs:187 *)
Definition rfc5904_PKM_AUTH_KEY_TYPE : byte := n2b 143.
(** rfc5904.rs:189-191 *)
Definition rfc5904_delete_pkm_auth_key (p : packet) : packet := packet_delete p rfc5904_PKM_AUTH_KEY_TYPE.
(** rfc5904.rs:193-195 *)
Definition rfc5904_add_pkm_auth_key (p : packet) (value : bytes) : packet :=
  packet_add p (avp_from_bytes rfc5904_PKM_AUTH_KEY_TYPE value).
(** rfc5904.rs:199-201 *)
Definition rfc5904_lookup_pkm_auth_key (p : packet) : option bytes :=
  option_map avp_encode_bytes (packet_lookup p rfc5904_PKM_AUTH_KEY_TYPE).
(** rfc5904.rs:203-209 *)
Definition rfc5904_lookup_all_pkm_auth_key (p : packet) : list bytes :=
  collect_bytes (packet_lookup_all p rfc5904_PKM_AUTH_KEY_TYPE).
(** ** radius/src/core/rfc6519.rs *)
(** rfc6519.rs:24 *)
Definition rfc6519_DS_LITE_TUNNEL_NAME_TYPE : byte := n2b 144.
(** rfc6519.rs:26-28 *)
Definition rfc6519_delete_ds_lite_tunnel_name (p : packet) : packet := packet_delete p rfc6519_DS_LITE_TUNNEL_NAME_TYPE.
(** rfc6519.rs:30-32 *)
Definition rfc6519_add_ds_lite_tunnel_name (p : packet) (value : bytes) : packet :=
  packet_add p (avp_from_string rfc6519_DS_LITE_TUNNEL_NAME_TYPE value).
(** rfc6519.rs:36-40 *)
Definition rfc6519_lookup_ds_lite_tunnel_name (p : packet) : option (res avp_error bytes) :=
  option_map avp_encode_string (packet_lookup p rfc6519_DS_LITE_TUNNEL_NAME_TYPE).
(** rfc6519.rs:42-48 *)
Definition rfc6519_lookup_all_ds_lite_tunnel_name (p : packet) : res avp_error (list bytes) :=
  collect avp_encode_string (packet_lookup_all p rfc6519_DS_LITE_TUNNEL_NAME_TYPE).
(** ** radius/src/core/rfc6572.rs *)
(** rfc6572.rs:43 *)
Definition rfc6572_MOBILE_NODE_IDENTIFIER_TYPE : byte := n2b 145.
(** rfc6572.rs:45-47 *)
Definition rfc6572_delete_mobile_node_identifier (p : packet) : packet := packet_delete p rfc6572_MOBILE_NODE_IDENTIFIER_TYPE.
(** rfc6572.rs:49-51 *)
Definition rfc6572_add_mobile_node_identifier (p : packet) (value : bytes) : packet :=
  packet_add p (avp_from_bytes rfc6572_MOBILE_NODE_IDENTIFIER_TYPE value).
(** rfc6572.rs:55-59 *)
Definition rfc6572_lookup_mobile_node_identifier (p : packet) : option bytes :=
  option_map avp_encode_bytes (packet_lookup p rfc6572_MOBILE_NODE_IDENTIFIER_TYPE).
(** rfc6572.rs:61-67 *)
Definition rfc6572_lookup_all_mobile_node_identifier (p : packet) : list bytes :=
  collect_bytes (packet_lookup_all p rfc6572_MOBILE_NODE_IDENTIFIER_TYPE).
(** rfc6572.rs:69 *)
Definition rfc6572_SERVICE_SELECTION_TYPE : byte := n2b 146.
(** rfc6572.rs:71-73 *)
Definition rfc6572_delete_service_selection (p : packet) : packet := packet_delete p rfc6572_SERVICE_SELECTION_TYPE.
(** rfc6572.rs:75-77 *)
Definition rfc6572_add_service_selection (p : packet) (value : bytes) : packet :=
  packet_add p (avp_from_string rfc6572_SERVICE_SELECTION_TYPE value).
(** rfc6572.rs:81-85 *)
Definition rfc6572_lookup_service_selection (p : packet) : option (res avp_error bytes) :=
  option_map avp_encode_string (packet_lookup p rfc6572_SERVICE_SELECTION_TYPE).
(** rfc6572.rs:87-93 *)
Definition rfc6572_lookup_all_service_selection (p : packet) : res avp_error (list bytes) :=
  collect avp_encode_string (packet_lookup_all p rfc6572_SERVICE_SELECTION_TYPE).
(** rfc6572.rs:95 *)
Definition rfc6572_PMIP6_HOME_LMA_IPV6_ADDRESS_TYPE : byte := n2b 147.
(** rfc6572.rs:97-99 *)
Definition rfc6572_delete_pmip6_home_lma_ipv6_address (p : packet) : packet := packet_delete p rfc6572_PMIP6_HOME_LMA_IPV6_ADDRESS_TYPE.
(** rfc6572.rs:101-103 *)
Definition rfc6572_add_pmip6_home_lma_ipv6_address (p : packet) (value : ipv6) : packet :=
  packet_add p (avp_from_ipv6 rfc6572_PMIP6_HOME_LMA_IPV6_ADDRESS_TYPE value).
(** rfc6572.rs:107-111 *)
Definition rfc6572_lookup_pmip6_home_lma_ipv6_address (p : packet) : option (res avp_error ipv6) :=
  option_map avp_encode_ipv6 (packet_lookup p rfc6572_PMIP6_HOME_LMA_IPV6_ADDRESS_TYPE).
(** rfc6572.rs:113-119 *)
Definition rfc6572_lookup_all_pmip6_home_lma_ipv6_address (p : packet) : res avp_error (list ipv6) :=
  collect avp_encode_ipv6 (packet_lookup_all p rfc6572_PMIP6_HOME_LMA_IPV6_ADDRESS_TYPE).
(** rfc6572.rs:121 *)
Definition rfc6572_PMIP6_VISITED_LMA_IPV6_ADDRESS_TYPE : byte := n2b 148.
(** rfc6572.rs:123-125 *)
Definition rfc6572_delete_pmip6_visited_lma_ipv6_address (p : packet) : packet := packet_delete p rfc6572_PMIP6_VISITED_LMA_IPV6_ADDRESS_TYPE.
(** rfc6572.rs:127-129 *)
Definition rfc6572_add_pmip6_visited_lma_ipv6_address (p : packet) (value : ipv6) : packet :=
  packet_add p (avp_from_ipv6 rfc6572_PMIP6_VISITED_LMA_IPV6_ADDRESS_TYPE value).
(** rfc6572.rs:133-139 *)
Definition rfc6572_lookup_pmip6_visited_lma_ipv6_address (p : packet) : option (res avp_error ipv6) :=
  option_map avp_encode_ipv6 (packet_lookup p rfc6572_PMIP6_VISITED_LMA_IPV6_ADDRESS_TYPE).
(** rfc6572.rs:141-149 *)
Definition rfc6572_lookup_all_pmip6_visited_lma_ipv6_address (p : packet) : res avp_error (list ipv6) :=
  collect avp_encode_ipv6 (packet_lookup_all p rfc6572_PMIP6_VISITED_LMA_IPV6_ADDRESS_TYPE).
(** rfc6572.rs:151 *)
Definition rfc6572_PMIP6_HOME_LMA_IPV4_ADDRESS_TYPE : byte := n2b 149.
(** rfc6572.rs:153-155 *)
Definition rfc6572_delete_pmip6_home_lma_ipv4_address (p : packet) : packet := packet_delete p rfc6572_PMIP6_HOME_LMA_IPV4_ADDRESS_TYPE.
(** rfc6572.rs:157-159 *)
Definition rfc6572_add_pmip6_home_lma_ipv4_address (p : packet) (value : ipv4) : packet :=
  packet_add p (avp_from_ipv4 rfc6572_PMIP6_HOME_LMA_IPV4_ADDRESS_TYPE value).
(** rfc6572.rs:163-167 *)
Definition rfc6572_lookup_pmip6_home_lma_ipv4_address (p : packet) : option (res avp_error ipv4) :=
  option_map avp_encode_ipv4 (packet_lookup p rfc6572_PMIP6_HOME_LMA_IPV4_ADDRESS_TYPE).
(** rfc6572.rs:169-175 *)
Definition rfc6572_lookup_all_pmip6_home_lma_ipv4_address (p : packet) : res avp_error (list ipv4) :=
  collect avp_encode_ipv4 (packet_lookup_all p rfc6572_PMIP6_HOME_LMA_IPV4_ADDRESS_TYPE).
(** rfc6572.rs:177 *)
Definition rfc6572_PMIP6_VISITED_LMA_IPV4_ADDRESS_TYPE : byte := n2b 150.
(** rfc6572.rs:179-181 *)
Definition rfc6572_delete_pmip6_visited_lma_ipv4_address (p : packet) : packet := packet_delete p rfc6572_PMIP6_VISITED_LMA_IPV4_ADDRESS_TYPE.
(** rfc6572.rs:183-185 *)
Definition rfc6572_add_pmip6_visited_lma_ipv4_address (p : packet) (value : ipv4) : packet :=
  packet_add p (avp_from_ipv4 rfc6572_PMIP6_VISITED_LMA_IPV4_ADDRESS_TYPE value).
(** rfc6572.rs:189-195 *)
Definition rfc6572_lookup_pmip6_visited_lma_ipv4_address (p : packet) : option (res avp_error ipv4) :=
  option_map avp_encode_ipv4 (packet_lookup p rfc6572_PMIP6_VISITED_LMA_IPV4_ADDRESS_TYPE).
(** rfc6572.rs:197-205 *)
Definition rfc6572_lookup_all_pmip6_visited_lma_ipv4_address (p : packet) : res avp_error (list ipv4) :=
  collect avp_encode_ipv4 (packet_lookup_all p rfc6572_PMIP6_VISITED_LMA_IPV4_ADDRESS_TYPE).
(** rfc6572.rs:207 *)
Definition rfc6572_PMIP6_HOME_HN_PREFIX_TYPE : byte := n2b 151.
(** rfc6572.rs:209-211 *)
Definition rfc6572_delete_pmip6_home_hn_prefix (p : packet) : packet := packet_delete p rfc6572_PMIP6_HOME_HN_PREFIX_TYPE.
(** rfc6572.rs:213-216 *)
Definition rfc6572_add_pmip6_home_hn_prefix (p : packet) (value : bytes) : packet * res avp_error unit :=
  try_add p (avp_from_ipv6_prefix rfc6572_PMIP6_HOME_HN_PREFIX_TYPE value).
(** rfc6572.rs:220-224 *)
Definition rfc6572_lookup_pmip6_home_hn_prefix (p : packet) : option (res avp_error bytes) :=
  option_map avp_encode_ipv6_prefix (packet_lookup p rfc6572_PMIP6_HOME_HN_PREFIX_TYPE).
(** rfc6572.rs:226-232 *)
Definition rfc6572_lookup_all_pmip6_home_hn_prefix (p : packet) : res avp_error (list bytes) :=
  collect avp_encode_ipv6_prefix (packet_lookup_all p rfc6572_PMIP6_HOME_HN_PREFIX_TYPE).
(** rfc6572.rs:234 *)
Definition rfc6572_PMIP6_VISITED_HN_PREFIX_TYPE : byte := n2b 152.
(** rfc6572.rs:236-238 *)
Definition rfc6572_delete_pmip6_visited_hn_prefix (p : packet) : packet := packet_delete p rfc6572_PMIP6_VISITED_HN_PREFIX_TYPE.
(** rfc6572.rs:240-243 *)
Definition rfc6572_add_pmip6_visited_hn_prefix (p : packet) (value : bytes) : packet * res avp_error unit :=
  try_add p (avp_from_ipv6_prefix rfc6572_PMIP6_VISITED_HN_PREFIX_TYPE value).
(** rfc6572.rs:247-251 *)
Definition rfc6572_lookup_pmip6_visited_hn_prefix (p : packet) : option (res avp_error bytes) :=
  option_map avp_encode_ipv6_prefix (packet_lookup p rfc6572_PMIP6_VISITED_HN_PREFIX_TYPE).
(** rfc6572.rs:253-259 *)
Definition rfc6572_lookup_all_pmip6_visited_hn_prefix (p : packet) : res avp_error (list bytes) :=
  collect avp_encode_ipv6_prefix (packet_lookup_all p rfc6572_PMIP6_VISITED_HN_PREFIX_TYPE).
(** rfc6572.rs:261 *)
Definition rfc6572_PMIP6_HOME_INTERFACE_ID_TYPE : byte := n2b 153.
(** rfc6572.rs:263-265 *)
Definition rfc6572_delete_pmip6_home_interface_id (p : packet) : packet := packet_delete p rfc6572_PMIP6_HOME_INTERFACE_ID_TYPE.
(** rfc6572.rs:267-276 *)
Definition rfc6572_add_pmip6_home_interface_id (p : packet) (value : bytes) : packet * res avp_error unit :=
  if negb (len value =? 8) then (p, Err (InvalidAttributeLengthError "8 bytes" (len value)))
  else (packet_add p (avp_from_bytes rfc6572_PMIP6_HOME_INTERFACE_ID_TYPE value), Ok tt).
(** rfc6572.rs:280-284 *)
Definition rfc6572_lookup_pmip6_home_interface_id (p : packet) : option bytes :=
  option_map avp_encode_bytes (packet_lookup p rfc6572_PMIP6_HOME_INTERFACE_ID_TYPE).
(** rfc6572.rs:286-292 *)
Definition rfc6572_lookup_all_pmip6_home_interface_id (p : packet) : list bytes :=
  collect_bytes (packet_lookup_all p rfc6572_PMIP6_HOME_INTERFACE_ID_TYPE).
(** rfc6572.rs:294 *)
Definition rfc6572_PMIP6_VISITED_INTERFACE_ID_TYPE : byte := n2b 154.
(** rfc6572.rs:296-298 *)
Definition rfc6572_delete_pmip6_visited_interface_id (p : packet) : packet := packet_delete p rfc6572_PMIP6_VISITED_INTERFACE_ID_TYPE.
(** rfc6572.rs:300-309 *)
Definition rfc6572_add_pmip6_visited_interface_id (p : packet) (value : bytes) : packet * res avp_error unit :=
  if negb (len value =? 8) then (p, Err (InvalidAttributeLengthError "8 bytes" (len value)))
  else (packet_add p (avp_from_bytes rfc6572_PMIP6_VISITED_INTERFACE_ID_TYPE value), Ok tt).
(** rfc6572.rs:313-317 *)
Definition rfc6572_lookup_pmip6_visited_interface_id (p : packet) : option bytes :=
  option_map avp_encode_bytes (packet_lookup p rfc6572_PMIP6_VISITED_INTERFACE_ID_TYPE).
(** rfc6572.rs:319-325 *)
Definition rfc6572_lookup_all_pmip6_visited_interface_id (p : packet) : list bytes :=
  collect_bytes (packet_lookup_all p rfc6572_PMIP6_VISITED_INTERFACE_ID_TYPE).
(** rfc6572.rs:327 *)
Definition rfc6572_PMIP6_HOME_IPV4_HO_A_TYPE : byte := n2b 155.
(** rfc6572.rs:329-331 *)
Definition rfc6572_delete_pmip6_home_ipv4_ho_a (p : packet) : packet := packet_delete p rfc6572_PMIP6_HOME_IPV4_HO_A_TYPE.
(** rfc6572.rs:333-336 *)
Definition rfc6572_add_pmip6_home_ipv4_ho_a (p : packet) (value : bytes) : packet * res avp_error unit :=
  try_add p (avp_from_ipv4_prefix rfc6572_PMIP6_HOME_IPV4_HO_A_TYPE value).
(** rfc6572.rs:340-344 *)
Definition rfc6572_lookup_pmip6_home_ipv4_ho_a (p : packet) : option (res avp_error bytes) :=
  option_map avp_encode_ipv4_prefix (packet_lookup p rfc6572_PMIP6_HOME_IPV4_HO_A_TYPE).
(** rfc6572.rs:346-352 *)
Definition rfc6572_lookup_all_pmip6_home_ipv4_ho_a (p : packet) : res avp_error (list bytes) :=
  collect avp_encode_ipv4_prefix (packet_lookup_all p rfc6572_PMIP6_HOME_IPV4_HO_A_TYPE).
(** rfc6572.rs:354 *)
Definition rfc6572_PMIP6_VISITED_IPV4_HO_A_TYPE : byte := n2b 156.
(** rfc6572.rs:356-358 *)
Definition rfc6572_delete_pmip6_visited_ipv4_ho_a (p : packet) : packet := packet_delete p rfc6572_PMIP6_VISITED_IPV4_HO_A_TYPE.
(** rfc6572.rs:360-363 *)
Definition rfc6572_add_pmip6_visited_ipv4_ho_a (p : packet) (value : bytes) : packet * res avp_error unit :=
  try_add p (avp_from_ipv4_prefix rfc6572_PMIP6_VISITED_IPV4_HO_A_TYPE value).
(** rfc6572.rs:367-371 *)
Definition rfc6572_lookup_pmip6_visited_ipv4_ho_a (p : packet) : option (res avp_error bytes) :=
  option_map avp_encode_ipv4_prefix (packet_lookup p rfc6572_PMIP6_VISITED_IPV4_HO_A_TYPE).
(** rfc6572.rs:373-379 *)
Definition rfc6572_lookup_all_pmip6_visited_ipv4_ho_a (p : packet) : res avp_error (list bytes) :=
  collect avp_encode_ipv4_prefix (packet_lookup_all p rfc6572_PMIP6_VISITED_IPV4_HO_A_TYPE).
(** rfc6572.rs:381 *)
Definition rfc6572_PMIP6_HOME_DHCP4_SERVER_ADDRESS_TYPE : byte := n2b 157.
(** rfc6572.rs:383-385 *)
Definition rfc6572_delete_pmip6_home_dhcp4_server_address (p : packet) : packet := packet_delete p rfc6572_PMIP6_HOME_DHCP4_SERVER_ADDRESS_TYPE.
(** rfc6572.rs:387-389 *)
Definition rfc6572_add_pmip6_home_dhcp4_server_address (p : packet) (value : ipv4) : packet :=
  packet_add p (avp_from_ipv4 rfc6572_PMIP6_HOME_DHCP4_SERVER_ADDRESS_TYPE value).
(** rfc6572.rs:393-399 *)
Definition rfc6572_lookup_pmip6_home_dhcp4_server_address (p : packet) : option (res avp_error ipv4) :=
  option_map avp_encode_ipv4 (packet_lookup p rfc6572_PMIP6_HOME_DHCP4_SERVER_ADDRESS_TYPE).
(** rfc6572.rs:401-409 *)
Definition rfc6572_lookup_all_pmip6_home_dhcp4_server_address (p : packet) : res avp_error (list ipv4) :=
  collect avp_encode_ipv4 (packet_lookup_all p rfc6572_PMIP6_HOME_DHCP4_SERVER_ADDRESS_TYPE).
(** rfc6572.rs:411 *)
Definition rfc6572_PMIP6_VISITED_DHCP4_SERVER_ADDRESS_TYPE : byte := n2b 158.
(** rfc6572.rs:413-415 *)
Definition rfc6572_delete_pmip6_visited_dhcp4_server_address (p : packet) : packet := packet_delete p rfc6572_PMIP6_VISITED_DHCP4_SERVER_ADDRESS_TYPE.
(** rfc6572.rs:417-422 *)
Definition rfc6572_add_pmip6_visited_dhcp4_server_address (p : packet) (value : ipv4) : packet :=
  packet_add p (avp_from_ipv4 rfc6572_PMIP6_VISITED_DHCP4_SERVER_ADDRESS_TYPE value).
(** rfc6572.rs:426-432 *)
Definition rfc6572_lookup_pmip6_visited_dhcp4_server_address (p : packet) : option (res avp_error ipv4) :=
  option_map avp_encode_ipv4 (packet_lookup p rfc6572_PMIP6_VISITED_DHCP4_SERVER_ADDRESS_TYPE).
(** rfc6572.rs:434-442 *)
Definition rfc6572_lookup_all_pmip6_visited_dhcp4_server_address (p : packet) : res avp_error (list ipv4) :=
  collect avp_encode_ipv4 (packet_lookup_all p rfc6572_PMIP6_VISITED_DHCP4_SERVER_ADDRESS_TYPE).
(** rfc6572.rs:444 *)
Definition rfc6572_PMIP6_HOME_DHCP6_SERVER_ADDRESS_TYPE : byte := n2b 159.
(** rfc6572.rs:446-448 *)
Definition rfc6572_delete_pmip6_home_dhcp6_server_address (p : packet) : packet := packet_delete p rfc6572_PMIP6_HOME_DHCP6_SERVER_ADDRESS_TYPE.
(** rfc6572.rs:450-452 *)
Definition rfc6572_add_pmip6_home_dhcp6_server_address (p : packet) (value : ipv6) : packet :=
  packet_add p (avp_from_ipv6 rfc6572_PMIP6_HOME_DHCP6_SERVER_ADDRESS_TYPE value).
(** rfc6572.rs:456-462 *)
Definition rfc6572_lookup_pmip6_home_dhcp6_server_address (p : packet) : option (res avp_error ipv6) :=
  option_map avp_encode_ipv6 (packet_lookup p rfc6572_PMIP6_HOME_DHCP6_SERVER_ADDRESS_TYPE).
(** rfc6572.rs:464-472 *)
Definition rfc6572_lookup_all_pmip6_home_dhcp6_server_address (p : packet) : res avp_error (list ipv6) :=
  collect avp_encode_ipv6 (packet_lookup_all p rfc6572_PMIP6_HOME_DHCP6_SERVER_ADDRESS_TYPE).
(** rfc6572.rs:474 *)
Definition rfc6572_PMIP6_VISITED_DHCP6_SERVER_ADDRESS_TYPE : byte := n2b 160.
(** rfc6572.rs:476-478 *)
Definition rfc6572_delete_pmip6_visited_dhcp6_server_address (p : packet) : packet := packet_delete p rfc6572_PMIP6_VISITED_DHCP6_SERVER_ADDRESS_TYPE.
(** rfc6572.rs:480-485 *)
Definition rfc6572_add_pmip6_visited_dhcp6_server_address (p : packet) (value : ipv6) : packet :=
  packet_add p (avp_from_ipv6 rfc6572_PMIP6_VISITED_DHCP6_SERVER_ADDRESS_TYPE value).
(** rfc6572.rs:489-495 *)
Definition rfc6572_lookup_pmip6_visited_dhcp6_server_address (p : packet) : option (res avp_error ipv6) :=
  option_map avp_encode_ipv6 (packet_lookup p rfc6572_PMIP6_VISITED_DHCP6_SERVER_ADDRESS_TYPE).
(** rfc6572.rs:497-505 *)
Definition rfc6572_lookup_all_pmip6_visited_dhcp6_server_address (p : packet) : res avp_error (list ipv6) :=
  collect avp_encode_ipv6 (packet_lookup_all p rfc6572_PMIP6_VISITED_DHCP6_SERVER_ADDRESS_TYPE).
(** rfc6572.rs:507 *)
Definition rfc6572_PMIP6_HOME_IPV4_GATEWAY_TYPE : byte := n2b 161.
(** rfc6572.rs:509-511 *)
Definition rfc6572_delete_pmip6_home_ipv4_gateway (p : packet) : packet := packet_delete p rfc6572_PMIP6_HOME_IPV4_GATEWAY_TYPE.
(** rfc6572.rs:513-515 *)
Definition rfc6572_add_pmip6_home_ipv4_gateway (p : packet) (value : ipv4) : packet :=
  packet_add p (avp_from_ipv4 rfc6572_PMIP6_HOME_IPV4_GATEWAY_TYPE value).
(** rfc6572.rs:519-523 *)
Definition rfc6572_lookup_pmip6_home_ipv4_gateway (p : packet) : option (res avp_error ipv4) :=
  option_map avp_encode_ipv4 (packet_lookup p rfc6572_PMIP6_HOME_IPV4_GATEWAY_TYPE).
(** rfc6572.rs:525-531 *)
Definition rfc6572_lookup_all_pmip6_home_ipv4_gateway (p : packet) : res avp_error (list ipv4) :=
  collect avp_encode_ipv4 (packet_lookup_all p rfc6572_PMIP6_HOME_IPV4_GATEWAY_TYPE).
(** rfc6572.rs:533 *)
Definition rfc6572_PMIP6_VISITED_IPV4_GATEWAY_TYPE : byte := n2b 162.
(** rfc6572.rs:535-537 *)
Definition rfc6572_delete_pmip6_visited_ipv4_gateway (p : packet) : packet := packet_delete p rfc6572_PMIP6_VISITED_IPV4_GATEWAY_TYPE.
(** rfc6572.rs:539-541 *)
Definition rfc6572_add_pmip6_visited_ipv4_gateway (p : packet) (value : ipv4) : packet :=
  packet_add p (avp_from_ipv4 rfc6572_PMIP6_VISITED_IPV4_GATEWAY_TYPE value).
(** rfc6572.rs:545-549 *)
Definition rfc6572_lookup_pmip6_visited_ipv4_gateway (p : packet) : option (res avp_error ipv4) :=
  option_map avp_encode_ipv4 (packet_lookup p rfc6572_PMIP6_VISITED_IPV4_GATEWAY_TYPE).
(** rfc6572.rs:551-557 *)
Definition rfc6572_lookup_all_pmip6_visited_ipv4_gateway (p : packet) : res avp_error (list ipv4) :=
  collect avp_encode_ipv4 (packet_lookup_all p rfc6572_PMIP6_VISITED_IPV4_GATEWAY_TYPE).
(** ** radius/src/core/rfc6677.rs *)
(** rfc6677.rs:32 *)
Definition rfc6677_EAP_LOWER_LAYER_TYPE : byte := n2b 163.
(** rfc6677.rs:34-36 *)
Definition rfc6677_delete_eap_lower_layer (p : packet) : packet := packet_delete p rfc6677_EAP_LOWER_LAYER_TYPE.
(** rfc6677.rs:38-40 *)
Definition rfc6677_add_eap_lower_layer (p : packet) (value : N) : packet :=
  packet_add p (avp_from_u32 rfc6677_EAP_LOWER_LAYER_TYPE value).
(** rfc6677.rs:44-48 *)
Definition rfc6677_lookup_eap_lower_layer (p : packet) : option (res avp_error N) :=
  option_map (fun v => do n <- avp_encode_u32 v; Ok n) (packet_lookup p rfc6677_EAP_LOWER_LAYER_TYPE).
(** rfc6677.rs:50-56 *)
Definition rfc6677_lookup_all_eap_lower_layer (p : packet) : res avp_error (list N) :=
  collect (fun v => do n <- avp_encode_u32 v; Ok n) (packet_lookup_all p rfc6677_EAP_LOWER_LAYER_TYPE).
(** ** radius/src/core/rfc6911.rs *)
(** rfc6911.rs:28 *)
Definition rfc6911_FRAMED_IPV6_ADDRESS_TYPE : byte := n2b 168.
(** rfc6911.rs:30-32 *)
Definition rfc6911_delete_framed_ipv6_address (p : packet) : packet := packet_delete p rfc6911_FRAMED_IPV6_ADDRESS_TYPE.
(** rfc6911.rs:34-36 *)
Definition rfc6911_add_framed_ipv6_address (p : packet) (value : ipv6) : packet :=
  packet_add p (avp_from_ipv6 rfc6911_FRAMED_IPV6_ADDRESS_TYPE value).
(** rfc6911.rs:40-44 *)
Definition rfc6911_lookup_framed_ipv6_address (p : packet) : option (res avp_error ipv6) :=
  option_map avp_encode_ipv6 (packet_lookup p rfc6911_FRAMED_IPV6_ADDRESS_TYPE).
(** rfc6911.rs:46-52 *)
Definition rfc6911_lookup_all_framed_ipv6_address (p : packet) : res avp_error (list ipv6) :=
  collect avp_encode_ipv6 (packet_lookup_all p rfc6911_FRAMED_IPV6_ADDRESS_TYPE).
(** rfc6911.rs:54 *)
Definition rfc6911_DNS_SERVER_IPV6_ADDRESS_TYPE : byte := n2b 169.
(** rfc6911.rs:56-58 *)
Definition rfc6911_delete_dns_server_ipv6_address (p : packet) : packet := packet_delete p rfc6911_DNS_SERVER_IPV6_ADDRESS_TYPE.
(** rfc6911.rs:60-62 *)
Definition rfc6911_add_dns_server_ipv6_address (p : packet) (value : ipv6) : packet :=
  packet_add p (avp_from_ipv6 rfc6911_DNS_SERVER_IPV6_ADDRESS_TYPE value).
(** rfc6911.rs:66-70 *)
Definition rfc6911_lookup_dns_server_ipv6_address (p : packet) : option (res avp_error ipv6) :=
  option_map avp_encode_ipv6 (packet_lookup p rfc6911_DNS_SERVER_IPV6_ADDRESS_TYPE).
(** rfc6911.rs:72-78 *)
Definition rfc6911_lookup_all_dns_server_ipv6_address (p : packet) : res avp_error (list ipv6) :=
  collect avp_encode_ipv6 (packet_lookup_all p rfc6911_DNS_SERVER_IPV6_ADDRESS_TYPE).
(** rfc6911.rs:80 *)
Definition rfc6911_ROUTE_IPV6_INFORMATION_TYPE : byte := n2b 170.
(** rfc6911.rs:82-84 *)
Definition rfc6911_delete_route_ipv6_information (p : packet) : packet := packet_delete p rfc6911_ROUTE_IPV6_INFORMATION_TYPE.
(** rfc6911.rs:86-89 *)
Definition rfc6911_add_route_ipv6_information (p : packet) (value : bytes) : packet * res avp_error unit :=
  try_add p (avp_from_ipv6_prefix rfc6911_ROUTE_IPV6_INFORMATION_TYPE value).
(** rfc6911.rs:93-97 *)
Definition rfc6911_lookup_route_ipv6_information (p : packet) : option (res avp_error bytes) :=
  option_map avp_encode_ipv6_prefix (packet_lookup p rfc6911_ROUTE_IPV6_INFORMATION_TYPE).
(** rfc6911.rs:99-105 *)
Definition rfc6911_lookup_all_route_ipv6_information (p : packet) : res avp_error (list bytes) :=
  collect avp_encode_ipv6_prefix (packet_lookup_all p rfc6911_ROUTE_IPV6_INFORMATION_TYPE).
(** rfc6911.rs:107 *)
Definition rfc6911_DELEGATED_IPV6_PREFIX_POOL_TYPE : byte := n2b 171.
(** rfc6911.rs:109-111 *)
Definition rfc6911_delete_delegated_ipv6_prefix_pool (p : packet) : packet := packet_delete p rfc6911_DELEGATED_IPV6_PREFIX_POOL_TYPE.
(** rfc6911.rs:113-115 *)
Definition rfc6911_add_delegated_ipv6_prefix_pool (p : packet) (value : bytes) : packet :=
  packet_add p (avp_from_string rfc6911_DELEGATED_IPV6_PREFIX_POOL_TYPE value).
(** rfc6911.rs:119-123 *)
Definition rfc6911_lookup_delegated_ipv6_prefix_pool (p : packet) : option (res avp_error bytes) :=
  option_map avp_encode_string (packet_lookup p rfc6911_DELEGATED_IPV6_PREFIX_POOL_TYPE).
(** rfc6911.rs:125-131 *)
Definition rfc6911_lookup_all_delegated_ipv6_prefix_pool (p : packet) : res avp_error (list bytes) :=
  collect avp_encode_string (packet_lookup_all p rfc6911_DELEGATED_IPV6_PREFIX_POOL_TYPE).
(** rfc6911.rs:133 *)
Definition rfc6911_STATEFUL_IPV6_ADDRESS_POOL_TYPE : byte := n2b 172.
(** rfc6911.rs:135-137 *)
Definition rfc6911_delete_stateful_ipv6_address_pool (p : packet) : packet := packet_delete p rfc6911_STATEFUL_IPV6_ADDRESS_POOL_TYPE.
(** rfc6911.rs:139-141 *)
Definition rfc6911_add_stateful_ipv6_address_pool (p : packet) (value : bytes) : packet :=
  packet_add p (avp_from_string rfc6911_STATEFUL_IPV6_ADDRESS_POOL_TYPE value).
(** rfc6911.rs:145-149 *)
Definition rfc6911_lookup_stateful_ipv6_address_pool (p : packet) : option (res avp_error bytes) :=
  option_map avp_encode_string (packet_lookup p rfc6911_STATEFUL_IPV6_ADDRESS_POOL_TYPE).
(** rfc6911.rs:151-157 *)
Definition rfc6911_lookup_all_stateful_ipv6_address_pool (p : packet) : res avp_error (list bytes) :=
  collect avp_encode_string (packet_lookup_all p rfc6911_STATEFUL_IPV6_ADDRESS_POOL_TYPE).
(** ** radius/src/core/rfc7055.rs *)
(** rfc7055.rs:25 *)
Definition rfc7055_GSS_ACCEPTOR_SERVICE_NAME_TYPE : byte := n2b 164.
(** rfc7055.rs:27-29 *)
Definition rfc7055_delete_gss_acceptor_service_name (p : packet) : packet := packet_delete p rfc7055_GSS_ACCEPTOR_SERVICE_NAME_TYPE.
(** rfc7055.rs:31-33 *)
Definition rfc7055_add_gss_acceptor_service_name (p : packet) (value : bytes) : packet :=
  packet_add p (avp_from_string rfc7055_GSS_ACCEPTOR_SERVICE_NAME_TYPE value).
(** rfc7055.rs:37-41 *)
Definition rfc7055_lookup_gss_acceptor_service_name (p : packet) : option (res avp_error bytes) :=
  option_map avp_encode_string (packet_lookup p rfc7055_GSS_ACCEPTOR_SERVICE_NAME_TYPE).
(** rfc7055.rs:43-49 *)
Definition rfc7055_lookup_all_gss_acceptor_service_name (p : packet) : res avp_error (list bytes) :=
  collect avp_encode_string (packet_lookup_all p rfc7055_GSS_ACCEPTOR_SERVICE_NAME_TYPE).
(** rfc7055.rs:51 *)
Definition rfc7055_GSS_ACCEPTOR_HOST_NAME_TYPE : byte := n2b 165.
(** rfc7055.rs:53-55 *)
Definition rfc7055_delete_gss_acceptor_host_name (p : packet) : packet := packet_delete p rfc7055_GSS_ACCEPTOR_HOST_NAME_TYPE.
(** rfc7055.rs:57-59 *)
Definition rfc7055_add_gss_acceptor_host_name (p : packet) (value : bytes) : packet :=
  packet_add p (avp_from_string rfc7055_GSS_ACCEPTOR_HOST_NAME_TYPE value).
(** rfc7055.rs:63-67 *)
Definition rfc7055_lookup_gss_acceptor_host_name (p : packet) : option (res avp_error bytes) :=
  option_map avp_encode_string (packet_lookup p rfc7055_GSS_ACCEPTOR_HOST_NAME_TYPE).
(** rfc7055.rs:69-75 *)
Definition rfc7055_lookup_all_gss_acceptor_host_name (p : packet) : res avp_error (list bytes) :=
  collect avp_encode_string (packet_lookup_all p rfc7055_GSS_ACCEPTOR_HOST_NAME_TYPE).
(** rfc7055.rs:77 *)
Definition rfc7055_GSS_ACCEPTOR_SERVICE_SPECIFICS_TYPE : byte := n2b 166.
(** rfc7055.rs:79-81 *)
Definition rfc7055_delete_gss_acceptor_service_specifics (p : packet) : packet := packet_delete p rfc7055_GSS_ACCEPTOR_SERVICE_SPECIFICS_TYPE.
(** rfc7055.rs:83-85 *)
Definition rfc7055_add_gss_acceptor_service_specifics (p : packet) (value : bytes) : packet :=
  packet_add p (avp_from_string rfc7055_GSS_ACCEPTOR_SERVICE_SPECIFICS_TYPE value).
(** rfc7055.rs:89-93 *)
Definition rfc7055_lookup_gss_acceptor_service_specifics (p : packet) : option (res avp_error bytes) :=
  option_map avp_encode_string (packet_lookup p rfc7055_GSS_ACCEPTOR_SERVICE_SPECIFICS_TYPE).
(** rfc7055.rs:95-101 *)
Definition rfc7055_lookup_all_gss_acceptor_service_specifics (p : packet) : res avp_error (list bytes) :=
  collect avp_encode_string (packet_lookup_all p rfc7055_GSS_ACCEPTOR_SERVICE_SPECIFICS_TYPE).
(** rfc7055.rs:103 *)
Definition rfc7055_GSS_ACCEPTOR_REALM_NAME_TYPE : byte := n2b 167.
(** rfc7055.rs:105-107 *)
Definition rfc7055_delete_gss_acceptor_realm_name (p : packet) : packet := packet_delete p rfc7055_GSS_ACCEPTOR_REALM_NAME_TYPE.
(** rfc7055.rs:109-111 *)
Definition rfc7055_add_gss_acceptor_realm_name (p : packet) (value : bytes) : packet :=
  packet_add p (avp_from_string rfc7055_GSS_ACCEPTOR_REALM_NAME_TYPE value).
(** rfc7055.rs:115-119 *)
Definition rfc7055_lookup_gss_acceptor_realm_name (p : packet) : option (res avp_error bytes) :=
  option_map avp_encode_string (packet_lookup p rfc7055_GSS_ACCEPTOR_REALM_NAME_TYPE).
(** rfc7055.rs:121-127 *)
Definition rfc7055_lookup_all_gss_acceptor_realm_name (p : packet) : res avp_error (list bytes) :=
  collect avp_encode_string (packet_lookup_all p rfc7055_GSS_ACCEPTOR_REALM_NAME_TYPE).
(** ** radius/src/core/rfc7155.rs *)
(** rfc7155.rs:25 *)
Definition rfc7155_ORIGINATING_LINE_INFO_TYPE : byte := n2b 94.
(** rfc7155.rs:27-29 *)
Definition rfc7155_delete_originating_line_info (p : packet) : packet := packet_delete p rfc7155_ORIGINATING_LINE_INFO_TYPE.
(** rfc7155.rs:31-40 *)
Definition rfc7155_add_originating_line_info (p : packet) (value : bytes) : packet * res avp_error unit :=
  if negb (len value =? 2) then (p, Err (InvalidAttributeLengthError "2 bytes" (len value)))
  else (packet_add p (avp_from_bytes rfc7155_ORIGINATING_LINE_INFO_TYPE value), Ok tt).
(** rfc7155.rs:44-48 *)
Definition rfc7155_lookup_originating_line_info (p : packet) : option bytes :=
  option_map avp_encode_bytes (packet_lookup p rfc7155_ORIGINATING_LINE_INFO_TYPE).
(** rfc7155.rs:50-56 *)
Definition rfc7155_lookup_all_originating_line_info (p : packet) : list bytes :=
  collect_bytes (packet_lookup_all p rfc7155_ORIGINATING_LINE_INFO_TYPE).

(** ** The table of all attributes *)
Local Open Scope string_scope.
Local Open Scope list_scope.
Definition entries : list entry := [
  (* rfc2865.rs:155-177 *)
  Entry "rfc2865" "user_name" KString rfc2865_USER_NAME_TYPE rfc2865_delete_user_name
    (fun p v => (rfc2865_add_user_name p v, Ok tt))
    (Some rfc2865_lookup_user_name)
    (Some rfc2865_lookup_all_user_name);
  (* rfc2865.rs:179-209 *)
  Entry "rfc2865" "user_password" KUserPassword rfc2865_USER_PASSWORD_TYPE rfc2865_delete_user_password
    rfc2865_add_user_password
    (Some rfc2865_lookup_user_password)
    (Some rfc2865_lookup_all_user_password);
  (* rfc2865.rs:211-233 *)
  Entry "rfc2865" "chap_password" KOctets rfc2865_CHAP_PASSWORD_TYPE rfc2865_delete_chap_password
    (fun p v => (rfc2865_add_chap_password p v, Ok tt))
    (Some (fun p => option_map Ok (rfc2865_lookup_chap_password p)))
    (Some (fun p => Ok (rfc2865_lookup_all_chap_password p)));
  (* rfc2865.rs:235-257 *)
  Entry "rfc2865" "nas_ip_address" KIpaddr rfc2865_NAS_IP_ADDRESS_TYPE rfc2865_delete_nas_ip_address
    (fun p v => (rfc2865_add_nas_ip_address p v, Ok tt))
    (Some rfc2865_lookup_nas_ip_address)
    (Some rfc2865_lookup_all_nas_ip_address);
  (* rfc2865.rs:259-281 *)
  Entry "rfc2865" "nas_port" KInteger rfc2865_NAS_PORT_TYPE rfc2865_delete_nas_port
    (fun p v => (rfc2865_add_nas_port p v, Ok tt))
    (Some rfc2865_lookup_nas_port)
    (Some rfc2865_lookup_all_nas_port);
  (* rfc2865.rs:283-307 *)
  Entry "rfc2865" "service_type" KValueInteger rfc2865_SERVICE_TYPE_TYPE rfc2865_delete_service_type
    (fun p v => (rfc2865_add_service_type p v, Ok tt))
    (Some rfc2865_lookup_service_type)
    (Some rfc2865_lookup_all_service_type);
  (* rfc2865.rs:309-333 *)
  Entry "rfc2865" "framed_protocol" KValueInteger rfc2865_FRAMED_PROTOCOL_TYPE rfc2865_delete_framed_protocol
    (fun p v => (rfc2865_add_framed_protocol p v, Ok tt))
    (Some rfc2865_lookup_framed_protocol)
    (Some rfc2865_lookup_all_framed_protocol);
  (* rfc2865.rs:335-359 *)
  Entry "rfc2865" "framed_ip_address" KIpaddr rfc2865_FRAMED_IP_ADDRESS_TYPE rfc2865_delete_framed_ip_address
    (fun p v => (rfc2865_add_framed_ip_address p v, Ok tt))
    (Some rfc2865_lookup_framed_ip_address)
    (Some rfc2865_lookup_all_framed_ip_address);
  (* rfc2865.rs:366-390 *)
  Entry "rfc2865" "framed_ip_netmask" KIpaddr rfc2865_FRAMED_IP_NETMASK_TYPE rfc2865_delete_framed_ip_netmask
    (fun p v => (rfc2865_add_framed_ip_netmask p v, Ok tt))
    (Some rfc2865_lookup_framed_ip_netmask)
    (Some rfc2865_lookup_all_framed_ip_netmask);
  (* rfc2865.rs:392-416 *)
  Entry "rfc2865" "framed_routing" KValueInteger rfc2865_FRAMED_ROUTING_TYPE rfc2865_delete_framed_routing
    (fun p v => (rfc2865_add_framed_routing p v, Ok tt))
    (Some rfc2865_lookup_framed_routing)
    (Some rfc2865_lookup_all_framed_routing);
  (* rfc2865.rs:418-440 *)
  Entry "rfc2865" "filter_id" KString rfc2865_FILTER_ID_TYPE rfc2865_delete_filter_id
    (fun p v => (rfc2865_add_filter_id p v, Ok tt))
    (Some rfc2865_lookup_filter_id)
    (Some rfc2865_lookup_all_filter_id);
  (* rfc2865.rs:442-464 *)
  Entry "rfc2865" "framed_mtu" KInteger rfc2865_FRAMED_MTU_TYPE rfc2865_delete_framed_mtu
    (fun p v => (rfc2865_add_framed_mtu p v, Ok tt))
    (Some rfc2865_lookup_framed_mtu)
    (Some rfc2865_lookup_all_framed_mtu);
  (* rfc2865.rs:466-490 *)
  Entry "rfc2865" "framed_compression" KValueInteger rfc2865_FRAMED_COMPRESSION_TYPE rfc2865_delete_framed_compression
    (fun p v => (rfc2865_add_framed_compression p v, Ok tt))
    (Some rfc2865_lookup_framed_compression)
    (Some rfc2865_lookup_all_framed_compression);
  (* rfc2865.rs:492-514 *)
  Entry "rfc2865" "login_ip_host" KIpaddr rfc2865_LOGIN_IP_HOST_TYPE rfc2865_delete_login_ip_host
    (fun p v => (rfc2865_add_login_ip_host p v, Ok tt))
    (Some rfc2865_lookup_login_ip_host)
    (Some rfc2865_lookup_all_login_ip_host);
  (* rfc2865.rs:516-540 *)
  Entry "rfc2865" "login_service" KValueInteger rfc2865_LOGIN_SERVICE_TYPE rfc2865_delete_login_service
    (fun p v => (rfc2865_add_login_service p v, Ok tt))
    (Some rfc2865_lookup_login_service)
    (Some rfc2865_lookup_all_login_service);
  (* rfc2865.rs:542-566 *)
  Entry "rfc2865" "login_tcp_port" KValueInteger rfc2865_LOGIN_TCP_PORT_TYPE rfc2865_delete_login_tcp_port
    (fun p v => (rfc2865_add_login_tcp_port p v, Ok tt))
    (Some rfc2865_lookup_login_tcp_port)
    (Some rfc2865_lookup_all_login_tcp_port);
  (* rfc2865.rs:568-590 *)
  Entry "rfc2865" "reply_message" KString rfc2865_REPLY_MESSAGE_TYPE rfc2865_delete_reply_message
    (fun p v => (rfc2865_add_reply_message p v, Ok tt))
    (Some rfc2865_lookup_reply_message)
    (Some rfc2865_lookup_all_reply_message);
  (* rfc2865.rs:592-616 *)
  Entry "rfc2865" "callback_number" KString rfc2865_CALLBACK_NUMBER_TYPE rfc2865_delete_callback_number
    (fun p v => (rfc2865_add_callback_number p v, Ok tt))
    (Some rfc2865_lookup_callback_number)
    (Some rfc2865_lookup_all_callback_number);
  (* rfc2865.rs:618-640 *)
  Entry "rfc2865" "callback_id" KString rfc2865_CALLBACK_ID_TYPE rfc2865_delete_callback_id
    (fun p v => (rfc2865_add_callback_id p v, Ok tt))
    (Some rfc2865_lookup_callback_id)
    (Some rfc2865_lookup_all_callback_id);
  (* rfc2865.rs:642-664 *)
  Entry "rfc2865" "framed_route" KString rfc2865_FRAMED_ROUTE_TYPE rfc2865_delete_framed_route
    (fun p v => (rfc2865_add_framed_route p v, Ok tt))
    (Some rfc2865_lookup_framed_route)
    (Some rfc2865_lookup_all_framed_route);
  (* rfc2865.rs:666-690 *)
  Entry "rfc2865" "framed_ipx_network" KIpaddr rfc2865_FRAMED_IPX_NETWORK_TYPE rfc2865_delete_framed_ipx_network
    (fun p v => (rfc2865_add_framed_ipx_network p v, Ok tt))
    (Some rfc2865_lookup_framed_ipx_network)
    (Some rfc2865_lookup_all_framed_ipx_network);
  (* rfc2865.rs:692-714 *)
  Entry "rfc2865" "state" KOctets rfc2865_STATE_TYPE rfc2865_delete_state
    (fun p v => (rfc2865_add_state p v, Ok tt))
    (Some (fun p => option_map Ok (rfc2865_lookup_state p)))
    (Some (fun p => Ok (rfc2865_lookup_all_state p)));
  (* rfc2865.rs:716-738 *)
  Entry "rfc2865" "class" KOctets rfc2865_CLASS_TYPE rfc2865_delete_class
    (fun p v => (rfc2865_add_class p v, Ok tt))
    (Some (fun p => option_map Ok (rfc2865_lookup_class p)))
    (Some (fun p => Ok (rfc2865_lookup_all_class p)));
  (* rfc2865.rs:740-744, 362-364 *)
  Entry "rfc2865" "vendor_specific" KVsa rfc2865_VENDOR_SPECIFIC_TYPE rfc2865_delete_vendor_specific
    (fun p v => (rfc2865_add_vsa_attribute p v, Ok tt)) None None;
  (* rfc2865.rs:746-768 *)
  Entry "rfc2865" "session_timeout" KInteger rfc2865_SESSION_TIMEOUT_TYPE rfc2865_delete_session_timeout
    (fun p v => (rfc2865_add_session_timeout p v, Ok tt))
    (Some rfc2865_lookup_session_timeout)
    (Some rfc2865_lookup_all_session_timeout);
  (* rfc2865.rs:770-792 *)
  Entry "rfc2865" "idle_timeout" KInteger rfc2865_IDLE_TIMEOUT_TYPE rfc2865_delete_idle_timeout
    (fun p v => (rfc2865_add_idle_timeout p v, Ok tt))
    (Some rfc2865_lookup_idle_timeout)
    (Some rfc2865_lookup_all_idle_timeout);
  (* rfc2865.rs:794-818 *)
  Entry "rfc2865" "termination_action" KValueInteger rfc2865_TERMINATION_ACTION_TYPE rfc2865_delete_termination_action
    (fun p v => (rfc2865_add_termination_action p v, Ok tt))
    (Some rfc2865_lookup_termination_action)
    (Some rfc2865_lookup_all_termination_action);
  (* rfc2865.rs:820-844 *)
  Entry "rfc2865" "called_station_id" KString rfc2865_CALLED_STATION_ID_TYPE rfc2865_delete_called_station_id
    (fun p v => (rfc2865_add_called_station_id p v, Ok tt))
    (Some rfc2865_lookup_called_station_id)
    (Some rfc2865_lookup_all_called_station_id);
  (* rfc2865.rs:846-870 *)
  Entry "rfc2865" "calling_station_id" KString rfc2865_CALLING_STATION_ID_TYPE rfc2865_delete_calling_station_id
    (fun p v => (rfc2865_add_calling_station_id p v, Ok tt))
    (Some rfc2865_lookup_calling_station_id)
    (Some rfc2865_lookup_all_calling_station_id);
  (* rfc2865.rs:872-896 *)
  Entry "rfc2865" "nas_identifier" KString rfc2865_NAS_IDENTIFIER_TYPE rfc2865_delete_nas_identifier
    (fun p v => (rfc2865_add_nas_identifier p v, Ok tt))
    (Some rfc2865_lookup_nas_identifier)
    (Some rfc2865_lookup_all_nas_identifier);
  (* rfc2865.rs:898-920 *)
  Entry "rfc2865" "proxy_state" KOctets rfc2865_PROXY_STATE_TYPE rfc2865_delete_proxy_state
    (fun p v => (rfc2865_add_proxy_state p v, Ok tt))
    (Some (fun p => option_map Ok (rfc2865_lookup_proxy_state p)))
    (Some (fun p => Ok (rfc2865_lookup_all_proxy_state p)));
  (* rfc2865.rs:922-946 *)
  Entry "rfc2865" "login_lat_service" KString rfc2865_LOGIN_LAT_SERVICE_TYPE rfc2865_delete_login_lat_service
    (fun p v => (rfc2865_add_login_lat_service p v, Ok tt))
    (Some rfc2865_lookup_login_lat_service)
    (Some rfc2865_lookup_all_login_lat_service);
  (* rfc2865.rs:948-972 *)
  Entry "rfc2865" "login_lat_node" KString rfc2865_LOGIN_LAT_NODE_TYPE rfc2865_delete_login_lat_node
    (fun p v => (rfc2865_add_login_lat_node p v, Ok tt))
    (Some rfc2865_lookup_login_lat_node)
    (Some rfc2865_lookup_all_login_lat_node);
  (* rfc2865.rs:974-998 *)
  Entry "rfc2865" "login_lat_group" KOctets rfc2865_LOGIN_LAT_GROUP_TYPE rfc2865_delete_login_lat_group
    (fun p v => (rfc2865_add_login_lat_group p v, Ok tt))
    (Some (fun p => option_map Ok (rfc2865_lookup_login_lat_group p)))
    (Some (fun p => Ok (rfc2865_lookup_all_login_lat_group p)));
  (* rfc2865.rs:1000-1024 *)
  Entry "rfc2865" "framed_apple_talk_link" KInteger rfc2865_FRAMED_APPLE_TALK_LINK_TYPE rfc2865_delete_framed_apple_talk_link
    (fun p v => (rfc2865_add_framed_apple_talk_link p v, Ok tt))
    (Some rfc2865_lookup_framed_apple_talk_link)
    (Some rfc2865_lookup_all_framed_apple_talk_link);
  (* rfc2865.rs:1026-1050 *)
  Entry "rfc2865" "framed_apple_talk_network" KInteger rfc2865_FRAMED_APPLE_TALK_NETWORK_TYPE rfc2865_delete_framed_apple_talk_network
    (fun p v => (rfc2865_add_framed_apple_talk_network p v, Ok tt))
    (Some rfc2865_lookup_framed_apple_talk_network)
    (Some rfc2865_lookup_all_framed_apple_talk_network);
  (* rfc2865.rs:1052-1076 *)
  Entry "rfc2865" "framed_apple_talk_zone" KString rfc2865_FRAMED_APPLE_TALK_ZONE_TYPE rfc2865_delete_framed_apple_talk_zone
    (fun p v => (rfc2865_add_framed_apple_talk_zone p v, Ok tt))
    (Some rfc2865_lookup_framed_apple_talk_zone)
    (Some rfc2865_lookup_all_framed_apple_talk_zone);
  (* rfc2865.rs:1078-1100 *)
  Entry "rfc2865" "chap_challenge" KOctets rfc2865_CHAP_CHALLENGE_TYPE rfc2865_delete_chap_challenge
    (fun p v => (rfc2865_add_chap_challenge p v, Ok tt))
    (Some (fun p => option_map Ok (rfc2865_lookup_chap_challenge p)))
    (Some (fun p => Ok (rfc2865_lookup_all_chap_challenge p)));
  (* rfc2865.rs:1102-1126 *)
  Entry "rfc2865" "nas_port_type" KValueInteger rfc2865_NAS_PORT_TYPE_TYPE rfc2865_delete_nas_port_type
    (fun p v => (rfc2865_add_nas_port_type p v, Ok tt))
    (Some rfc2865_lookup_nas_port_type)
    (Some rfc2865_lookup_all_nas_port_type);
  (* rfc2865.rs:1128-1150 *)
  Entry "rfc2865" "port_limit" KInteger rfc2865_PORT_LIMIT_TYPE rfc2865_delete_port_limit
    (fun p v => (rfc2865_add_port_limit p v, Ok tt))
    (Some rfc2865_lookup_port_limit)
    (Some rfc2865_lookup_all_port_limit);
  (* rfc2865.rs:1152-1176 *)
  Entry "rfc2865" "login_lat_port" KString rfc2865_LOGIN_LAT_PORT_TYPE rfc2865_delete_login_lat_port
    (fun p v => (rfc2865_add_login_lat_port p v, Ok tt))
    (Some rfc2865_lookup_login_lat_port)
    (Some rfc2865_lookup_all_login_lat_port);
  (* rfc2866.rs:72-96 *)
  Entry "rfc2866" "acct_status_type" KValueInteger rfc2866_ACCT_STATUS_TYPE_TYPE rfc2866_delete_acct_status_type
    (fun p v => (rfc2866_add_acct_status_type p v, Ok tt))
    (Some rfc2866_lookup_acct_status_type)
    (Some rfc2866_lookup_all_acct_status_type);
  (* rfc2866.rs:98-120 *)
  Entry "rfc2866" "acct_delay_time" KInteger rfc2866_ACCT_DELAY_TIME_TYPE rfc2866_delete_acct_delay_time
    (fun p v => (rfc2866_add_acct_delay_time p v, Ok tt))
    (Some rfc2866_lookup_acct_delay_time)
    (Some rfc2866_lookup_all_acct_delay_time);
  (* rfc2866.rs:122-146 *)
  Entry "rfc2866" "acct_input_octets" KInteger rfc2866_ACCT_INPUT_OCTETS_TYPE rfc2866_delete_acct_input_octets
    (fun p v => (rfc2866_add_acct_input_octets p v, Ok tt))
    (Some rfc2866_lookup_acct_input_octets)
    (Some rfc2866_lookup_all_acct_input_octets);
  (* rfc2866.rs:148-172 *)
  Entry "rfc2866" "acct_output_octets" KInteger rfc2866_ACCT_OUTPUT_OCTETS_TYPE rfc2866_delete_acct_output_octets
    (fun p v => (rfc2866_add_acct_output_octets p v, Ok tt))
    (Some rfc2866_lookup_acct_output_octets)
    (Some rfc2866_lookup_all_acct_output_octets);
  (* rfc2866.rs:174-198 *)
  Entry "rfc2866" "acct_session_id" KString rfc2866_ACCT_SESSION_ID_TYPE rfc2866_delete_acct_session_id
    (fun p v => (rfc2866_add_acct_session_id p v, Ok tt))
    (Some rfc2866_lookup_acct_session_id)
    (Some rfc2866_lookup_all_acct_session_id);
  (* rfc2866.rs:200-224 *)
  Entry "rfc2866" "acct_authentic" KValueInteger rfc2866_ACCT_AUTHENTIC_TYPE rfc2866_delete_acct_authentic
    (fun p v => (rfc2866_add_acct_authentic p v, Ok tt))
    (Some rfc2866_lookup_acct_authentic)
    (Some rfc2866_lookup_all_acct_authentic);
  (* rfc2866.rs:226-250 *)
  Entry "rfc2866" "acct_session_time" KInteger rfc2866_ACCT_SESSION_TIME_TYPE rfc2866_delete_acct_session_time
    (fun p v => (rfc2866_add_acct_session_time p v, Ok tt))
    (Some rfc2866_lookup_acct_session_time)
    (Some rfc2866_lookup_all_acct_session_time);
  (* rfc2866.rs:252-276 *)
  Entry "rfc2866" "acct_input_packets" KInteger rfc2866_ACCT_INPUT_PACKETS_TYPE rfc2866_delete_acct_input_packets
    (fun p v => (rfc2866_add_acct_input_packets p v, Ok tt))
    (Some rfc2866_lookup_acct_input_packets)
    (Some rfc2866_lookup_all_acct_input_packets);
  (* rfc2866.rs:278-302 *)
  Entry "rfc2866" "acct_output_packets" KInteger rfc2866_ACCT_OUTPUT_PACKETS_TYPE rfc2866_delete_acct_output_packets
    (fun p v => (rfc2866_add_acct_output_packets p v, Ok tt))
    (Some rfc2866_lookup_acct_output_packets)
    (Some rfc2866_lookup_all_acct_output_packets);
  (* rfc2866.rs:304-332 *)
  Entry "rfc2866" "acct_terminate_cause" KValueInteger rfc2866_ACCT_TERMINATE_CAUSE_TYPE rfc2866_delete_acct_terminate_cause
    (fun p v => (rfc2866_add_acct_terminate_cause p v, Ok tt))
    (Some rfc2866_lookup_acct_terminate_cause)
    (Some rfc2866_lookup_all_acct_terminate_cause);
  (* rfc2866.rs:334-358 *)
  Entry "rfc2866" "acct_multi_session_id" KString rfc2866_ACCT_MULTI_SESSION_ID_TYPE rfc2866_delete_acct_multi_session_id
    (fun p v => (rfc2866_add_acct_multi_session_id p v, Ok tt))
    (Some rfc2866_lookup_acct_multi_session_id)
    (Some rfc2866_lookup_all_acct_multi_session_id);
  (* rfc2866.rs:360-382 *)
  Entry "rfc2866" "acct_link_count" KInteger rfc2866_ACCT_LINK_COUNT_TYPE rfc2866_delete_acct_link_count
    (fun p v => (rfc2866_add_acct_link_count p v, Ok tt))
    (Some rfc2866_lookup_acct_link_count)
    (Some rfc2866_lookup_all_acct_link_count);
  (* rfc2867.rs:33-57 *)
  Entry "rfc2867" "acct_tunnel_connection" KString rfc2867_ACCT_TUNNEL_CONNECTION_TYPE rfc2867_delete_acct_tunnel_connection
    (fun p v => (rfc2867_add_acct_tunnel_connection p v, Ok tt))
    (Some rfc2867_lookup_acct_tunnel_connection)
    (Some rfc2867_lookup_all_acct_tunnel_connection);
  (* rfc2867.rs:59-83 *)
  Entry "rfc2867" "acct_tunnel_packets_lost" KInteger rfc2867_ACCT_TUNNEL_PACKETS_LOST_TYPE rfc2867_delete_acct_tunnel_packets_lost
    (fun p v => (rfc2867_add_acct_tunnel_packets_lost p v, Ok tt))
    (Some rfc2867_lookup_acct_tunnel_packets_lost)
    (Some rfc2867_lookup_all_acct_tunnel_packets_lost);
  (* rfc2868.rs:70-96 *)
  Entry "rfc2868" "tunnel_type" KTaggedValueInteger rfc2868_TUNNEL_TYPE_TYPE rfc2868_delete_tunnel_type
    (fun p '(t, v) => (rfc2868_add_tunnel_type p t v, Ok tt))
    (Some rfc2868_lookup_tunnel_type)
    (Some rfc2868_lookup_all_tunnel_type);
  (* rfc2868.rs:98-128 *)
  Entry "rfc2868" "tunnel_medium_type" KTaggedValueInteger rfc2868_TUNNEL_MEDIUM_TYPE_TYPE rfc2868_delete_tunnel_medium_type
    (fun p '(t, v) => (rfc2868_add_tunnel_medium_type p t v, Ok tt))
    (Some rfc2868_lookup_tunnel_medium_type)
    (Some rfc2868_lookup_all_tunnel_medium_type);
  (* rfc2868.rs:130-162 *)
  Entry "rfc2868" "tunnel_client_endpoint" KTaggedString rfc2868_TUNNEL_CLIENT_ENDPOINT_TYPE rfc2868_delete_tunnel_client_endpoint
    (fun p '(t, v) => (rfc2868_add_tunnel_client_endpoint p t v, Ok tt))
    (Some rfc2868_lookup_tunnel_client_endpoint)
    (Some rfc2868_lookup_all_tunnel_client_endpoint);
  (* rfc2868.rs:164-196 *)
  Entry "rfc2868" "tunnel_server_endpoint" KTaggedString rfc2868_TUNNEL_SERVER_ENDPOINT_TYPE rfc2868_delete_tunnel_server_endpoint
    (fun p '(t, v) => (rfc2868_add_tunnel_server_endpoint p t v, Ok tt))
    (Some rfc2868_lookup_tunnel_server_endpoint)
    (Some rfc2868_lookup_all_tunnel_server_endpoint);
  (* rfc2868.rs:198-233 *)
  Entry "rfc2868" "tunnel_password" KTunnelPassword rfc2868_TUNNEL_PASSWORD_TYPE rfc2868_delete_tunnel_password
    (fun p '(r0, r1, t, v) => rfc2868_add_tunnel_password p r0 r1 t v)
    (Some rfc2868_lookup_tunnel_password)
    (Some rfc2868_lookup_all_tunnel_password);
  (* rfc2868.rs:235-267 *)
  Entry "rfc2868" "tunnel_private_group_id" KTaggedString rfc2868_TUNNEL_PRIVATE_GROUP_ID_TYPE rfc2868_delete_tunnel_private_group_id
    (fun p '(t, v) => (rfc2868_add_tunnel_private_group_id p t v, Ok tt))
    (Some rfc2868_lookup_tunnel_private_group_id)
    (Some rfc2868_lookup_all_tunnel_private_group_id);
  (* rfc2868.rs:269-301 *)
  Entry "rfc2868" "tunnel_assignment_id" KTaggedString rfc2868_TUNNEL_ASSIGNMENT_ID_TYPE rfc2868_delete_tunnel_assignment_id
    (fun p '(t, v) => (rfc2868_add_tunnel_assignment_id p t v, Ok tt))
    (Some rfc2868_lookup_tunnel_assignment_id)
    (Some rfc2868_lookup_all_tunnel_assignment_id);
  (* rfc2868.rs:303-327 *)
  Entry "rfc2868" "tunnel_preference" KTaggedInteger rfc2868_TUNNEL_PREFERENCE_TYPE rfc2868_delete_tunnel_preference
    (fun p '(t, v) => (rfc2868_add_tunnel_preference p t v, Ok tt))
    (Some rfc2868_lookup_tunnel_preference)
    (Some rfc2868_lookup_all_tunnel_preference);
  (* rfc2868.rs:329-361 *)
  Entry "rfc2868" "tunnel_client_auth_id" KTaggedString rfc2868_TUNNEL_CLIENT_AUTH_ID_TYPE rfc2868_delete_tunnel_client_auth_id
    (fun p '(t, v) => (rfc2868_add_tunnel_client_auth_id p t v, Ok tt))
    (Some rfc2868_lookup_tunnel_client_auth_id)
    (Some rfc2868_lookup_all_tunnel_client_auth_id);
  (* rfc2868.rs:363-395 *)
  Entry "rfc2868" "tunnel_server_auth_id" KTaggedString rfc2868_TUNNEL_SERVER_AUTH_ID_TYPE rfc2868_delete_tunnel_server_auth_id
    (fun p '(t, v) => (rfc2868_add_tunnel_server_auth_id p t v, Ok tt))
    (Some rfc2868_lookup_tunnel_server_auth_id)
    (Some rfc2868_lookup_all_tunnel_server_auth_id);
  (* rfc2869.rs:56-80 *)
  Entry "rfc2869" "acct_input_gigawords" KInteger rfc2869_ACCT_INPUT_GIGAWORDS_TYPE rfc2869_delete_acct_input_gigawords
    (fun p v => (rfc2869_add_acct_input_gigawords p v, Ok tt))
    (Some rfc2869_lookup_acct_input_gigawords)
    (Some rfc2869_lookup_all_acct_input_gigawords);
  (* rfc2869.rs:82-106 *)
  Entry "rfc2869" "acct_output_gigawords" KInteger rfc2869_ACCT_OUTPUT_GIGAWORDS_TYPE rfc2869_delete_acct_output_gigawords
    (fun p v => (rfc2869_add_acct_output_gigawords p v, Ok tt))
    (Some rfc2869_lookup_acct_output_gigawords)
    (Some rfc2869_lookup_all_acct_output_gigawords);
  (* rfc2869.rs:108-130 *)
  Entry "rfc2869" "event_timestamp" KDate rfc2869_EVENT_TIMESTAMP_TYPE rfc2869_delete_event_timestamp
    (fun p v => (rfc2869_add_event_timestamp p v, Ok tt))
    (Some rfc2869_lookup_event_timestamp)
    (Some rfc2869_lookup_all_event_timestamp);
  (* rfc2869.rs:132-161 *)
  Entry "rfc2869" "arap_password" (KFixedOctets 16) rfc2869_ARAP_PASSWORD_TYPE rfc2869_delete_arap_password
    rfc2869_add_arap_password
    (Some (fun p => option_map Ok (rfc2869_lookup_arap_password p)))
    (Some (fun p => Ok (rfc2869_lookup_all_arap_password p)));
  (* rfc2869.rs:163-192 *)
  Entry "rfc2869" "arap_features" (KFixedOctets 14) rfc2869_ARAP_FEATURES_TYPE rfc2869_delete_arap_features
    rfc2869_add_arap_features
    (Some (fun p => option_map Ok (rfc2869_lookup_arap_features p)))
    (Some (fun p => Ok (rfc2869_lookup_all_arap_features p)));
  (* rfc2869.rs:194-218 *)
  Entry "rfc2869" "arap_zone_access" KValueInteger rfc2869_ARAP_ZONE_ACCESS_TYPE rfc2869_delete_arap_zone_access
    (fun p v => (rfc2869_add_arap_zone_access p v, Ok tt))
    (Some rfc2869_lookup_arap_zone_access)
    (Some rfc2869_lookup_all_arap_zone_access);
  (* rfc2869.rs:220-242 *)
  Entry "rfc2869" "arap_security" KInteger rfc2869_ARAP_SECURITY_TYPE rfc2869_delete_arap_security
    (fun p v => (rfc2869_add_arap_security p v, Ok tt))
    (Some rfc2869_lookup_arap_security)
    (Some rfc2869_lookup_all_arap_security);
  (* rfc2869.rs:244-268 *)
  Entry "rfc2869" "arap_security_data" KString rfc2869_ARAP_SECURITY_DATA_TYPE rfc2869_delete_arap_security_data
    (fun p v => (rfc2869_add_arap_security_data p v, Ok tt))
    (Some rfc2869_lookup_arap_security_data)
    (Some rfc2869_lookup_all_arap_security_data);
  (* rfc2869.rs:270-292 *)
  Entry "rfc2869" "password_retry" KInteger rfc2869_PASSWORD_RETRY_TYPE rfc2869_delete_password_retry
    (fun p v => (rfc2869_add_password_retry p v, Ok tt))
    (Some rfc2869_lookup_password_retry)
    (Some rfc2869_lookup_all_password_retry);
  (* rfc2869.rs:294-318 *)
  Entry "rfc2869" "prompt" KValueInteger rfc2869_PROMPT_TYPE rfc2869_delete_prompt
    (fun p v => (rfc2869_add_prompt p v, Ok tt))
    (Some rfc2869_lookup_prompt)
    (Some rfc2869_lookup_all_prompt);
  (* rfc2869.rs:320-342 *)
  Entry "rfc2869" "connect_info" KString rfc2869_CONNECT_INFO_TYPE rfc2869_delete_connect_info
    (fun p v => (rfc2869_add_connect_info p v, Ok tt))
    (Some rfc2869_lookup_connect_info)
    (Some rfc2869_lookup_all_connect_info);
  (* rfc2869.rs:344-368 *)
  Entry "rfc2869" "configuration_token" KString rfc2869_CONFIGURATION_TOKEN_TYPE rfc2869_delete_configuration_token
    (fun p v => (rfc2869_add_configuration_token p v, Ok tt))
    (Some rfc2869_lookup_configuration_token)
    (Some rfc2869_lookup_all_configuration_token);
  (* rfc2869.rs:370-392 *)
  Entry "rfc2869" "eap_message" KConcatOctets rfc2869_EAP_MESSAGE_TYPE rfc2869_delete_eap_message
    (fun p v => (rfc2869_add_eap_message p v, Ok tt))
    (Some (fun p => option_map Ok (rfc2869_lookup_eap_message p)))
    None;
  (* rfc2869.rs:394-418 *)
  Entry "rfc2869" "message_authenticator" KOctets rfc2869_MESSAGE_AUTHENTICATOR_TYPE rfc2869_delete_message_authenticator
    (fun p v => (rfc2869_add_message_authenticator p v, Ok tt))
    (Some (fun p => option_map Ok (rfc2869_lookup_message_authenticator p)))
    (Some (fun p => Ok (rfc2869_lookup_all_message_authenticator p)));
  (* rfc2869.rs:420-451 *)
  Entry "rfc2869" "arap_challenge_response" (KFixedOctets 8) rfc2869_ARAP_CHALLENGE_RESPONSE_TYPE rfc2869_delete_arap_challenge_response
    rfc2869_add_arap_challenge_response
    (Some (fun p => option_map Ok (rfc2869_lookup_arap_challenge_response p)))
    (Some (fun p => Ok (rfc2869_lookup_all_arap_challenge_response p)));
  (* rfc2869.rs:453-477 *)
  Entry "rfc2869" "acct_interim_interval" KInteger rfc2869_ACCT_INTERIM_INTERVAL_TYPE rfc2869_delete_acct_interim_interval
    (fun p v => (rfc2869_add_acct_interim_interval p v, Ok tt))
    (Some rfc2869_lookup_acct_interim_interval)
    (Some rfc2869_lookup_all_acct_interim_interval);
  (* rfc2869.rs:479-501 *)
  Entry "rfc2869" "nas_port_id" KString rfc2869_NAS_PORT_ID_TYPE rfc2869_delete_nas_port_id
    (fun p v => (rfc2869_add_nas_port_id p v, Ok tt))
    (Some rfc2869_lookup_nas_port_id)
    (Some rfc2869_lookup_all_nas_port_id);
  (* rfc2869.rs:503-525 *)
  Entry "rfc2869" "framed_pool" KString rfc2869_FRAMED_POOL_TYPE rfc2869_delete_framed_pool
    (fun p v => (rfc2869_add_framed_pool p v, Ok tt))
    (Some rfc2869_lookup_framed_pool)
    (Some rfc2869_lookup_all_framed_pool);
  (* rfc3162.rs:30-54 *)
  Entry "rfc3162" "nas_ipv6_address" KIpv6addr rfc3162_NAS_IPV6_ADDRESS_TYPE rfc3162_delete_nas_ipv6_address
    (fun p v => (rfc3162_add_nas_ipv6_address p v, Ok tt))
    (Some rfc3162_lookup_nas_ipv6_address)
    (Some rfc3162_lookup_all_nas_ipv6_address);
  (* rfc3162.rs:56-87 *)
  Entry "rfc3162" "framed_interface_id" (KFixedOctets 8) rfc3162_FRAMED_INTERFACE_ID_TYPE rfc3162_delete_framed_interface_id
    rfc3162_add_framed_interface_id
    (Some (fun p => option_map Ok (rfc3162_lookup_framed_interface_id p)))
    (Some (fun p => Ok (rfc3162_lookup_all_framed_interface_id p)));
  (* rfc3162.rs:89-114 *)
  Entry "rfc3162" "framed_ipv6_prefix" KIpv6Prefix rfc3162_FRAMED_IPV6_PREFIX_TYPE rfc3162_delete_framed_ipv6_prefix
    rfc3162_add_framed_ipv6_prefix
    (Some rfc3162_lookup_framed_ipv6_prefix)
    (Some rfc3162_lookup_all_framed_ipv6_prefix);
  (* rfc3162.rs:116-138 *)
  Entry "rfc3162" "login_ipv6_host" KIpv6addr rfc3162_LOGIN_IPV6_HOST_TYPE rfc3162_delete_login_ipv6_host
    (fun p v => (rfc3162_add_login_ipv6_host p v, Ok tt))
    (Some rfc3162_lookup_login_ipv6_host)
    (Some rfc3162_lookup_all_login_ipv6_host);
  (* rfc3162.rs:140-164 *)
  Entry "rfc3162" "framed_ipv6_route" KString rfc3162_FRAMED_IPV6_ROUTE_TYPE rfc3162_delete_framed_ipv6_route
    (fun p v => (rfc3162_add_framed_ipv6_route p v, Ok tt))
    (Some rfc3162_lookup_framed_ipv6_route)
    (Some rfc3162_lookup_all_framed_ipv6_route);
  (* rfc3162.rs:166-190 *)
  Entry "rfc3162" "framed_ipv6_pool" KString rfc3162_FRAMED_IPV6_POOL_TYPE rfc3162_delete_framed_ipv6_pool
    (fun p v => (rfc3162_add_framed_ipv6_pool p v, Ok tt))
    (Some rfc3162_lookup_framed_ipv6_pool)
    (Some rfc3162_lookup_all_framed_ipv6_pool);
  (* rfc3576.rs:47-71 *)
  Entry "rfc3576" "error_cause" KValueInteger rfc3576_ERROR_CAUSE_TYPE rfc3576_delete_error_cause
    (fun p v => (rfc3576_add_error_cause p v, Ok tt))
    (Some rfc3576_lookup_error_cause)
    (Some rfc3576_lookup_all_error_cause);
  (* rfc4072.rs:24-46 *)
  Entry "rfc4072" "eap_key_name" KOctets rfc4072_EAP_KEY_NAME_TYPE rfc4072_delete_eap_key_name
    (fun p v => (rfc4072_add_eap_key_name p v, Ok tt))
    (Some (fun p => option_map Ok (rfc4072_lookup_eap_key_name p)))
    (Some (fun p => Ok (rfc4072_lookup_all_eap_key_name p)));
  (* rfc4372.rs:23-47 *)
  Entry "rfc4372" "chargeable_user_identity" KOctets rfc4372_CHARGEABLE_USER_IDENTITY_TYPE rfc4372_delete_chargeable_user_identity
    (fun p v => (rfc4372_add_chargeable_user_identity p v, Ok tt))
    (Some (fun p => option_map Ok (rfc4372_lookup_chargeable_user_identity p)))
    (Some (fun p => Ok (rfc4372_lookup_all_chargeable_user_identity p)));
  (* rfc4675.rs:43-65 *)
  Entry "rfc4675" "egress_vlanid" KInteger rfc4675_EGRESS_VLANID_TYPE rfc4675_delete_egress_vlanid
    (fun p v => (rfc4675_add_egress_vlanid p v, Ok tt))
    (Some rfc4675_lookup_egress_vlanid)
    (Some rfc4675_lookup_all_egress_vlanid);
  (* rfc4675.rs:67-91 *)
  Entry "rfc4675" "ingress_filters" KValueInteger rfc4675_INGRESS_FILTERS_TYPE rfc4675_delete_ingress_filters
    (fun p v => (rfc4675_add_ingress_filters p v, Ok tt))
    (Some rfc4675_lookup_ingress_filters)
    (Some rfc4675_lookup_all_ingress_filters);
  (* rfc4675.rs:93-117 *)
  Entry "rfc4675" "egress_vlan_name" KString rfc4675_EGRESS_VLAN_NAME_TYPE rfc4675_delete_egress_vlan_name
    (fun p v => (rfc4675_add_egress_vlan_name p v, Ok tt))
    (Some rfc4675_lookup_egress_vlan_name)
    (Some rfc4675_lookup_all_egress_vlan_name);
  (* rfc4675.rs:119-143 *)
  Entry "rfc4675" "user_priority_table" KOctets rfc4675_USER_PRIORITY_TABLE_TYPE rfc4675_delete_user_priority_table
    (fun p v => (rfc4675_add_user_priority_table p v, Ok tt))
    (Some (fun p => option_map Ok (rfc4675_lookup_user_priority_table p)))
    (Some (fun p => Ok (rfc4675_lookup_all_user_priority_table p)));
  (* rfc4818.rs:26-51 *)
  Entry "rfc4818" "delegated_ipv6_prefix" KIpv6Prefix rfc4818_DELEGATED_IPV6_PREFIX_TYPE rfc4818_delete_delegated_ipv6_prefix
    rfc4818_add_delegated_ipv6_prefix
    (Some rfc4818_lookup_delegated_ipv6_prefix)
    (Some rfc4818_lookup_all_delegated_ipv6_prefix);
  (* rfc4849.rs:23-47 *)
  Entry "rfc4849" "nas_filter_rule" KString rfc4849_NAS_FILTER_RULE_TYPE rfc4849_delete_nas_filter_rule
    (fun p v => (rfc4849_add_nas_filter_rule p v, Ok tt))
    (Some rfc4849_lookup_nas_filter_rule)
    (Some rfc4849_lookup_all_nas_filter_rule);
  (* rfc5090.rs:42-66 *)
  Entry "rfc5090" "digest_response" KString rfc5090_DIGEST_RESPONSE_TYPE rfc5090_delete_digest_response
    (fun p v => (rfc5090_add_digest_response p v, Ok tt))
    (Some rfc5090_lookup_digest_response)
    (Some rfc5090_lookup_all_digest_response);
  (* rfc5090.rs:68-90 *)
  Entry "rfc5090" "digest_realm" KString rfc5090_DIGEST_REALM_TYPE rfc5090_delete_digest_realm
    (fun p v => (rfc5090_add_digest_realm p v, Ok tt))
    (Some rfc5090_lookup_digest_realm)
    (Some rfc5090_lookup_all_digest_realm);
  (* rfc5090.rs:92-114 *)
  Entry "rfc5090" "digest_nonce" KString rfc5090_DIGEST_NONCE_TYPE rfc5090_delete_digest_nonce
    (fun p v => (rfc5090_add_digest_nonce p v, Ok tt))
    (Some rfc5090_lookup_digest_nonce)
    (Some rfc5090_lookup_all_digest_nonce);
  (* rfc5090.rs:116-140 *)
  Entry "rfc5090" "digest_response_auth" KString rfc5090_DIGEST_RESPONSE_AUTH_TYPE rfc5090_delete_digest_response_auth
    (fun p v => (rfc5090_add_digest_response_auth p v, Ok tt))
    (Some rfc5090_lookup_digest_response_auth)
    (Some rfc5090_lookup_all_digest_response_auth);
  (* rfc5090.rs:142-166 *)
  Entry "rfc5090" "digest_nextnonce" KString rfc5090_DIGEST_NEXTNONCE_TYPE rfc5090_delete_digest_nextnonce
    (fun p v => (rfc5090_add_digest_nextnonce p v, Ok tt))
    (Some rfc5090_lookup_digest_nextnonce)
    (Some rfc5090_lookup_all_digest_nextnonce);
  (* rfc5090.rs:168-190 *)
  Entry "rfc5090" "digest_method" KString rfc5090_DIGEST_METHOD_TYPE rfc5090_delete_digest_method
    (fun p v => (rfc5090_add_digest_method p v, Ok tt))
    (Some rfc5090_lookup_digest_method)
    (Some rfc5090_lookup_all_digest_method);
  (* rfc5090.rs:192-214 *)
  Entry "rfc5090" "digest_uri" KString rfc5090_DIGEST_URI_TYPE rfc5090_delete_digest_uri
    (fun p v => (rfc5090_add_digest_uri p v, Ok tt))
    (Some rfc5090_lookup_digest_uri)
    (Some rfc5090_lookup_all_digest_uri);
  (* rfc5090.rs:216-238 *)
  Entry "rfc5090" "digest_qop" KString rfc5090_DIGEST_QOP_TYPE rfc5090_delete_digest_qop
    (fun p v => (rfc5090_add_digest_qop p v, Ok tt))
    (Some rfc5090_lookup_digest_qop)
    (Some rfc5090_lookup_all_digest_qop);
  (* rfc5090.rs:240-264 *)
  Entry "rfc5090" "digest_algorithm" KString rfc5090_DIGEST_ALGORITHM_TYPE rfc5090_delete_digest_algorithm
    (fun p v => (rfc5090_add_digest_algorithm p v, Ok tt))
    (Some rfc5090_lookup_digest_algorithm)
    (Some rfc5090_lookup_all_digest_algorithm);
  (* rfc5090.rs:266-290 *)
  Entry "rfc5090" "digest_entity_body_hash" KString rfc5090_DIGEST_ENTITY_BODY_HASH_TYPE rfc5090_delete_digest_entity_body_hash
    (fun p v => (rfc5090_add_digest_entity_body_hash p v, Ok tt))
    (Some rfc5090_lookup_digest_entity_body_hash)
    (Some rfc5090_lookup_all_digest_entity_body_hash);
  (* rfc5090.rs:292-316 *)
  Entry "rfc5090" "digest_c_nonce" KString rfc5090_DIGEST_C_NONCE_TYPE rfc5090_delete_digest_c_nonce
    (fun p v => (rfc5090_add_digest_c_nonce p v, Ok tt))
    (Some rfc5090_lookup_digest_c_nonce)
    (Some rfc5090_lookup_all_digest_c_nonce);
  (* rfc5090.rs:318-342 *)
  Entry "rfc5090" "digest_nonce_count" KString rfc5090_DIGEST_NONCE_COUNT_TYPE rfc5090_delete_digest_nonce_count
    (fun p v => (rfc5090_add_digest_nonce_count p v, Ok tt))
    (Some rfc5090_lookup_digest_nonce_count)
    (Some rfc5090_lookup_all_digest_nonce_count);
  (* rfc5090.rs:344-368 *)
  Entry "rfc5090" "digest_username" KString rfc5090_DIGEST_USERNAME_TYPE rfc5090_delete_digest_username
    (fun p v => (rfc5090_add_digest_username p v, Ok tt))
    (Some rfc5090_lookup_digest_username)
    (Some rfc5090_lookup_all_digest_username);
  (* rfc5090.rs:370-392 *)
  Entry "rfc5090" "digest_opaque" KString rfc5090_DIGEST_OPAQUE_TYPE rfc5090_delete_digest_opaque
    (fun p v => (rfc5090_add_digest_opaque p v, Ok tt))
    (Some rfc5090_lookup_digest_opaque)
    (Some rfc5090_lookup_all_digest_opaque);
  (* rfc5090.rs:394-418 *)
  Entry "rfc5090" "digest_auth_param" KString rfc5090_DIGEST_AUTH_PARAM_TYPE rfc5090_delete_digest_auth_param
    (fun p v => (rfc5090_add_digest_auth_param p v, Ok tt))
    (Some rfc5090_lookup_digest_auth_param)
    (Some rfc5090_lookup_all_digest_auth_param);
  (* rfc5090.rs:420-444 *)
  Entry "rfc5090" "digest_aka_auts" KString rfc5090_DIGEST_AKA_AUTS_TYPE rfc5090_delete_digest_aka_auts
    (fun p v => (rfc5090_add_digest_aka_auts p v, Ok tt))
    (Some rfc5090_lookup_digest_aka_auts)
    (Some rfc5090_lookup_all_digest_aka_auts);
  (* rfc5090.rs:446-468 *)
  Entry "rfc5090" "digest_domain" KString rfc5090_DIGEST_DOMAIN_TYPE rfc5090_delete_digest_domain
    (fun p v => (rfc5090_add_digest_domain p v, Ok tt))
    (Some rfc5090_lookup_digest_domain)
    (Some rfc5090_lookup_all_digest_domain);
  (* rfc5090.rs:470-492 *)
  Entry "rfc5090" "digest_stale" KString rfc5090_DIGEST_STALE_TYPE rfc5090_delete_digest_stale
    (fun p v => (rfc5090_add_digest_stale p v, Ok tt))
    (Some rfc5090_lookup_digest_stale)
    (Some rfc5090_lookup_all_digest_stale);
  (* rfc5090.rs:494-516 *)
  Entry "rfc5090" "digest_ha1" KString rfc5090_DIGEST_HA1_TYPE rfc5090_delete_digest_ha1
    (fun p v => (rfc5090_add_digest_ha1 p v, Ok tt))
    (Some rfc5090_lookup_digest_ha1)
    (Some rfc5090_lookup_all_digest_ha1);
  (* rfc5090.rs:518-540 *)
  Entry "rfc5090" "sip_aor" KString rfc5090_SIP_AOR_TYPE rfc5090_delete_sip_aor
    (fun p v => (rfc5090_add_sip_aor p v, Ok tt))
    (Some rfc5090_lookup_sip_aor)
    (Some rfc5090_lookup_all_sip_aor);
  (* rfc5607.rs:47-71 *)
  Entry "rfc5607" "framed_management" KValueInteger rfc5607_FRAMED_MANAGEMENT_TYPE rfc5607_delete_framed_management
    (fun p v => (rfc5607_add_framed_management p v, Ok tt))
    (Some rfc5607_lookup_framed_management)
    (Some rfc5607_lookup_all_framed_management);
  (* rfc5607.rs:73-104 *)
  Entry "rfc5607" "management_transport_protection" KValueInteger rfc5607_MANAGEMENT_TRANSPORT_PROTECTION_TYPE rfc5607_delete_management_transport_protection
    (fun p v => (rfc5607_add_management_transport_protection p v, Ok tt))
    (Some rfc5607_lookup_management_transport_protection)
    (Some rfc5607_lookup_all_management_transport_protection);
  (* rfc5607.rs:106-130 *)
  Entry "rfc5607" "management_policy_id" KString rfc5607_MANAGEMENT_POLICY_ID_TYPE rfc5607_delete_management_policy_id
    (fun p v => (rfc5607_add_management_policy_id p v, Ok tt))
    (Some rfc5607_lookup_management_policy_id)
    (Some rfc5607_lookup_all_management_policy_id);
  (* rfc5607.rs:132-156 *)
  Entry "rfc5607" "management_privilege_level" KInteger rfc5607_MANAGEMENT_PRIVILEGE_LEVEL_TYPE rfc5607_delete_management_privilege_level
    (fun p v => (rfc5607_add_management_privilege_level p v, Ok tt))
    (Some rfc5607_lookup_management_privilege_level)
    (Some rfc5607_lookup_all_management_privilege_level);
  (* rfc5904.rs:37-59 *)
  Entry "rfc5904" "pkm_ss_cert" KConcatOctets rfc5904_PKM_SS_CERT_TYPE rfc5904_delete_pkm_ss_cert
    (fun p v => (rfc5904_add_pkm_ss_cert p v, Ok tt))
    (Some (fun p => option_map Ok (rfc5904_lookup_pkm_ss_cert p)))
    None;
  (* rfc5904.rs:61-83 *)
  Entry "rfc5904" "pkm_ca_cert" KConcatOctets rfc5904_PKM_CA_CERT_TYPE rfc5904_delete_pkm_ca_cert
    (fun p v => (rfc5904_add_pkm_ca_cert p v, Ok tt))
    (Some (fun p => option_map Ok (rfc5904_lookup_pkm_ca_cert p)))
    None;
  (* rfc5904.rs:85-109 *)
  Entry "rfc5904" "pkm_config_settings" KOctets rfc5904_PKM_CONFIG_SETTINGS_TYPE rfc5904_delete_pkm_config_settings
    (fun p v => (rfc5904_add_pkm_config_settings p v, Ok tt))
    (Some (fun p => option_map Ok (rfc5904_lookup_pkm_config_settings p)))
    (Some (fun p => Ok (rfc5904_lookup_all_pkm_config_settings p)));
  (* rfc5904.rs:111-135 *)
  Entry "rfc5904" "pkm_cryptosuite_list" KOctets rfc5904_PKM_CRYPTOSUITE_LIST_TYPE rfc5904_delete_pkm_cryptosuite_list
    (fun p v => (rfc5904_add_pkm_cryptosuite_list p v, Ok tt))
    (Some (fun p => option_map Ok (rfc5904_lookup_pkm_cryptosuite_list p)))
    (Some (fun p => Ok (rfc5904_lookup_all_pkm_cryptosuite_list p)));
  (* rfc5904.rs:137-159 *)
  Entry "rfc5904" "pkm_said" KShort rfc5904_PKM_SAID_TYPE rfc5904_delete_pkm_said
    (fun p v => (rfc5904_add_pkm_said p v, Ok tt))
    (Some rfc5904_lookup_pkm_said)
    (Some rfc5904_lookup_all_pkm_said);
  (* rfc5904.rs:161-185 *)
  Entry "rfc5904" "pkm_sa_descriptor" KOctets rfc5904_PKM_SA_DESCRIPTOR_TYPE rfc5904_delete_pkm_sa_descriptor
    (fun p v => (rfc5904_add_pkm_sa_descriptor p v, Ok tt))
    (Some (fun p => option_map Ok (rfc5904_lookup_pkm_sa_descriptor p)))
    (Some (fun p => Ok (rfc5904_lookup_all_pkm_sa_descriptor p)));
  (* rfc5904.rs:187-209 *)
  Entry "rfc5904" "pkm_auth_key" KOctets rfc5904_PKM_AUTH_KEY_TYPE rfc5904_delete_pkm_auth_key
    (fun p v => (rfc5904_add_pkm_auth_key p v, Ok tt))
    (Some (fun p => option_map Ok (rfc5904_lookup_pkm_auth_key p)))
    (Some (fun p => Ok (rfc5904_lookup_all_pkm_auth_key p)));
  (* rfc6519.rs:24-48 *)
  Entry "rfc6519" "ds_lite_tunnel_name" KString rfc6519_DS_LITE_TUNNEL_NAME_TYPE rfc6519_delete_ds_lite_tunnel_name
    (fun p v => (rfc6519_add_ds_lite_tunnel_name p v, Ok tt))
    (Some rfc6519_lookup_ds_lite_tunnel_name)
    (Some rfc6519_lookup_all_ds_lite_tunnel_name);
  (* rfc6572.rs:43-67 *)
  Entry "rfc6572" "mobile_node_identifier" KOctets rfc6572_MOBILE_NODE_IDENTIFIER_TYPE rfc6572_delete_mobile_node_identifier
    (fun p v => (rfc6572_add_mobile_node_identifier p v, Ok tt))
    (Some (fun p => option_map Ok (rfc6572_lookup_mobile_node_identifier p)))
    (Some (fun p => Ok (rfc6572_lookup_all_mobile_node_identifier p)));
  (* rfc6572.rs:69-93 *)
  Entry "rfc6572" "service_selection" KString rfc6572_SERVICE_SELECTION_TYPE rfc6572_delete_service_selection
    (fun p v => (rfc6572_add_service_selection p v, Ok tt))
    (Some rfc6572_lookup_service_selection)
    (Some rfc6572_lookup_all_service_selection);
  (* rfc6572.rs:95-119 *)
  Entry "rfc6572" "pmip6_home_lma_ipv6_address" KIpv6addr rfc6572_PMIP6_HOME_LMA_IPV6_ADDRESS_TYPE rfc6572_delete_pmip6_home_lma_ipv6_address
    (fun p v => (rfc6572_add_pmip6_home_lma_ipv6_address p v, Ok tt))
    (Some rfc6572_lookup_pmip6_home_lma_ipv6_address)
    (Some rfc6572_lookup_all_pmip6_home_lma_ipv6_address);
  (* rfc6572.rs:121-149 *)
  Entry "rfc6572" "pmip6_visited_lma_ipv6_address" KIpv6addr rfc6572_PMIP6_VISITED_LMA_IPV6_ADDRESS_TYPE rfc6572_delete_pmip6_visited_lma_ipv6_address
    (fun p v => (rfc6572_add_pmip6_visited_lma_ipv6_address p v, Ok tt))
    (Some rfc6572_lookup_pmip6_visited_lma_ipv6_address)
    (Some rfc6572_lookup_all_pmip6_visited_lma_ipv6_address);
  (* rfc6572.rs:151-175 *)
  Entry "rfc6572" "pmip6_home_lma_ipv4_address" KIpaddr rfc6572_PMIP6_HOME_LMA_IPV4_ADDRESS_TYPE rfc6572_delete_pmip6_home_lma_ipv4_address
    (fun p v => (rfc6572_add_pmip6_home_lma_ipv4_address p v, Ok tt))
    (Some rfc6572_lookup_pmip6_home_lma_ipv4_address)
    (Some rfc6572_lookup_all_pmip6_home_lma_ipv4_address);
  (* rfc6572.rs:177-205 *)
  Entry "rfc6572" "pmip6_visited_lma_ipv4_address" KIpaddr rfc6572_PMIP6_VISITED_LMA_IPV4_ADDRESS_TYPE rfc6572_delete_pmip6_visited_lma_ipv4_address
    (fun p v => (rfc6572_add_pmip6_visited_lma_ipv4_address p v, Ok tt))
    (Some rfc6572_lookup_pmip6_visited_lma_ipv4_address)
    (Some rfc6572_lookup_all_pmip6_visited_lma_ipv4_address);
  (* rfc6572.rs:207-232 *)
  Entry "rfc6572" "pmip6_home_hn_prefix" KIpv6Prefix rfc6572_PMIP6_HOME_HN_PREFIX_TYPE rfc6572_delete_pmip6_home_hn_prefix
    rfc6572_add_pmip6_home_hn_prefix
    (Some rfc6572_lookup_pmip6_home_hn_prefix)
    (Some rfc6572_lookup_all_pmip6_home_hn_prefix);
  (* rfc6572.rs:234-259 *)
  Entry "rfc6572" "pmip6_visited_hn_prefix" KIpv6Prefix rfc6572_PMIP6_VISITED_HN_PREFIX_TYPE rfc6572_delete_pmip6_visited_hn_prefix
    rfc6572_add_pmip6_visited_hn_prefix
    (Some rfc6572_lookup_pmip6_visited_hn_prefix)
    (Some rfc6572_lookup_all_pmip6_visited_hn_prefix);
  (* rfc6572.rs:261-292 *)
  Entry "rfc6572" "pmip6_home_interface_id" (KFixedOctets 8) rfc6572_PMIP6_HOME_INTERFACE_ID_TYPE rfc6572_delete_pmip6_home_interface_id
    rfc6572_add_pmip6_home_interface_id
    (Some (fun p => option_map Ok (rfc6572_lookup_pmip6_home_interface_id p)))
    (Some (fun p => Ok (rfc6572_lookup_all_pmip6_home_interface_id p)));
  (* rfc6572.rs:294-325 *)
  Entry "rfc6572" "pmip6_visited_interface_id" (KFixedOctets 8) rfc6572_PMIP6_VISITED_INTERFACE_ID_TYPE rfc6572_delete_pmip6_visited_interface_id
    rfc6572_add_pmip6_visited_interface_id
    (Some (fun p => option_map Ok (rfc6572_lookup_pmip6_visited_interface_id p)))
    (Some (fun p => Ok (rfc6572_lookup_all_pmip6_visited_interface_id p)));
  (* rfc6572.rs:327-352 *)
  Entry "rfc6572" "pmip6_home_ipv4_ho_a" KIpv4Prefix rfc6572_PMIP6_HOME_IPV4_HO_A_TYPE rfc6572_delete_pmip6_home_ipv4_ho_a
    rfc6572_add_pmip6_home_ipv4_ho_a
    (Some rfc6572_lookup_pmip6_home_ipv4_ho_a)
    (Some rfc6572_lookup_all_pmip6_home_ipv4_ho_a);
  (* rfc6572.rs:354-379 *)
  Entry "rfc6572" "pmip6_visited_ipv4_ho_a" KIpv4Prefix rfc6572_PMIP6_VISITED_IPV4_HO_A_TYPE rfc6572_delete_pmip6_visited_ipv4_ho_a
    rfc6572_add_pmip6_visited_ipv4_ho_a
    (Some rfc6572_lookup_pmip6_visited_ipv4_ho_a)
    (Some rfc6572_lookup_all_pmip6_visited_ipv4_ho_a);
  (* rfc6572.rs:381-409 *)
  Entry "rfc6572" "pmip6_home_dhcp4_server_address" KIpaddr rfc6572_PMIP6_HOME_DHCP4_SERVER_ADDRESS_TYPE rfc6572_delete_pmip6_home_dhcp4_server_address
    (fun p v => (rfc6572_add_pmip6_home_dhcp4_server_address p v, Ok tt))
    (Some rfc6572_lookup_pmip6_home_dhcp4_server_address)
    (Some rfc6572_lookup_all_pmip6_home_dhcp4_server_address);
  (* rfc6572.rs:411-442 *)
  Entry "rfc6572" "pmip6_visited_dhcp4_server_address" KIpaddr rfc6572_PMIP6_VISITED_DHCP4_SERVER_ADDRESS_TYPE rfc6572_delete_pmip6_visited_dhcp4_server_address
    (fun p v => (rfc6572_add_pmip6_visited_dhcp4_server_address p v, Ok tt))
    (Some rfc6572_lookup_pmip6_visited_dhcp4_server_address)
    (Some rfc6572_lookup_all_pmip6_visited_dhcp4_server_address);
  (* rfc6572.rs:444-472 *)
  Entry "rfc6572" "pmip6_home_dhcp6_server_address" KIpv6addr rfc6572_PMIP6_HOME_DHCP6_SERVER_ADDRESS_TYPE rfc6572_delete_pmip6_home_dhcp6_server_address
    (fun p v => (rfc6572_add_pmip6_home_dhcp6_server_address p v, Ok tt))
    (Some rfc6572_lookup_pmip6_home_dhcp6_server_address)
    (Some rfc6572_lookup_all_pmip6_home_dhcp6_server_address);
  (* rfc6572.rs:474-505 *)
  Entry "rfc6572" "pmip6_visited_dhcp6_server_address" KIpv6addr rfc6572_PMIP6_VISITED_DHCP6_SERVER_ADDRESS_TYPE rfc6572_delete_pmip6_visited_dhcp6_server_address
    (fun p v => (rfc6572_add_pmip6_visited_dhcp6_server_address p v, Ok tt))
    (Some rfc6572_lookup_pmip6_visited_dhcp6_server_address)
    (Some rfc6572_lookup_all_pmip6_visited_dhcp6_server_address);
  (* rfc6572.rs:507-531 *)
  Entry "rfc6572" "pmip6_home_ipv4_gateway" KIpaddr rfc6572_PMIP6_HOME_IPV4_GATEWAY_TYPE rfc6572_delete_pmip6_home_ipv4_gateway
    (fun p v => (rfc6572_add_pmip6_home_ipv4_gateway p v, Ok tt))
    (Some rfc6572_lookup_pmip6_home_ipv4_gateway)
    (Some rfc6572_lookup_all_pmip6_home_ipv4_gateway);
  (* rfc6572.rs:533-557 *)
  Entry "rfc6572" "pmip6_visited_ipv4_gateway" KIpaddr rfc6572_PMIP6_VISITED_IPV4_GATEWAY_TYPE rfc6572_delete_pmip6_visited_ipv4_gateway
    (fun p v => (rfc6572_add_pmip6_visited_ipv4_gateway p v, Ok tt))
    (Some rfc6572_lookup_pmip6_visited_ipv4_gateway)
    (Some rfc6572_lookup_all_pmip6_visited_ipv4_gateway);
  (* rfc6677.rs:32-56 *)
  Entry "rfc6677" "eap_lower_layer" KValueInteger rfc6677_EAP_LOWER_LAYER_TYPE rfc6677_delete_eap_lower_layer
    (fun p v => (rfc6677_add_eap_lower_layer p v, Ok tt))
    (Some rfc6677_lookup_eap_lower_layer)
    (Some rfc6677_lookup_all_eap_lower_layer);
  (* rfc6911.rs:28-52 *)
  Entry "rfc6911" "framed_ipv6_address" KIpv6addr rfc6911_FRAMED_IPV6_ADDRESS_TYPE rfc6911_delete_framed_ipv6_address
    (fun p v => (rfc6911_add_framed_ipv6_address p v, Ok tt))
    (Some rfc6911_lookup_framed_ipv6_address)
    (Some rfc6911_lookup_all_framed_ipv6_address);
  (* rfc6911.rs:54-78 *)
  Entry "rfc6911" "dns_server_ipv6_address" KIpv6addr rfc6911_DNS_SERVER_IPV6_ADDRESS_TYPE rfc6911_delete_dns_server_ipv6_address
    (fun p v => (rfc6911_add_dns_server_ipv6_address p v, Ok tt))
    (Some rfc6911_lookup_dns_server_ipv6_address)
    (Some rfc6911_lookup_all_dns_server_ipv6_address);
  (* rfc6911.rs:80-105 *)
  Entry "rfc6911" "route_ipv6_information" KIpv6Prefix rfc6911_ROUTE_IPV6_INFORMATION_TYPE rfc6911_delete_route_ipv6_information
    rfc6911_add_route_ipv6_information
    (Some rfc6911_lookup_route_ipv6_information)
    (Some rfc6911_lookup_all_route_ipv6_information);
  (* rfc6911.rs:107-131 *)
  Entry "rfc6911" "delegated_ipv6_prefix_pool" KString rfc6911_DELEGATED_IPV6_PREFIX_POOL_TYPE rfc6911_delete_delegated_ipv6_prefix_pool
    (fun p v => (rfc6911_add_delegated_ipv6_prefix_pool p v, Ok tt))
    (Some rfc6911_lookup_delegated_ipv6_prefix_pool)
    (Some rfc6911_lookup_all_delegated_ipv6_prefix_pool);
  (* rfc6911.rs:133-157 *)
  Entry "rfc6911" "stateful_ipv6_address_pool" KString rfc6911_STATEFUL_IPV6_ADDRESS_POOL_TYPE rfc6911_delete_stateful_ipv6_address_pool
    (fun p v => (rfc6911_add_stateful_ipv6_address_pool p v, Ok tt))
    (Some rfc6911_lookup_stateful_ipv6_address_pool)
    (Some rfc6911_lookup_all_stateful_ipv6_address_pool);
  (* rfc7055.rs:25-49 *)
  Entry "rfc7055" "gss_acceptor_service_name" KString rfc7055_GSS_ACCEPTOR_SERVICE_NAME_TYPE rfc7055_delete_gss_acceptor_service_name
    (fun p v => (rfc7055_add_gss_acceptor_service_name p v, Ok tt))
    (Some rfc7055_lookup_gss_acceptor_service_name)
    (Some rfc7055_lookup_all_gss_acceptor_service_name);
  (* rfc7055.rs:51-75 *)
  Entry "rfc7055" "gss_acceptor_host_name" KString rfc7055_GSS_ACCEPTOR_HOST_NAME_TYPE rfc7055_delete_gss_acceptor_host_name
    (fun p v => (rfc7055_add_gss_acceptor_host_name p v, Ok tt))
    (Some rfc7055_lookup_gss_acceptor_host_name)
    (Some rfc7055_lookup_all_gss_acceptor_host_name);
  (* rfc7055.rs:77-101 *)
  Entry "rfc7055" "gss_acceptor_service_specifics" KString rfc7055_GSS_ACCEPTOR_SERVICE_SPECIFICS_TYPE rfc7055_delete_gss_acceptor_service_specifics
    (fun p v => (rfc7055_add_gss_acceptor_service_specifics p v, Ok tt))
    (Some rfc7055_lookup_gss_acceptor_service_specifics)
    (Some rfc7055_lookup_all_gss_acceptor_service_specifics);
  (* rfc7055.rs:103-127 *)
  Entry "rfc7055" "gss_acceptor_realm_name" KString rfc7055_GSS_ACCEPTOR_REALM_NAME_TYPE rfc7055_delete_gss_acceptor_realm_name
    (fun p v => (rfc7055_add_gss_acceptor_realm_name p v, Ok tt))
    (Some rfc7055_lookup_gss_acceptor_realm_name)
    (Some rfc7055_lookup_all_gss_acceptor_realm_name);
  (* rfc7155.rs:25-56 *)
  Entry "rfc7155" "originating_line_info" (KFixedOctets 2) rfc7155_ORIGINATING_LINE_INFO_TYPE rfc7155_delete_originating_line_info
    rfc7155_add_originating_line_info
    (Some (fun p => option_map Ok (rfc7155_lookup_originating_line_info p)))
    (Some (fun p => Ok (rfc7155_lookup_all_originating_line_info p)))
].

(** ** The enumerated value types: [pub type T = u32;] *)
Definition value_types : list (string * string) := [
  (* rfc2865.rs:1178 *) ("rfc2865", "FramedCompression");
  (* rfc2865.rs:1184 *) ("rfc2865", "FramedProtocol");
  (* rfc2865.rs:1192 *) ("rfc2865", "FramedRouting");
  (* rfc2865.rs:1198 *) ("rfc2865", "LoginService");
  (* rfc2865.rs:1208 *) ("rfc2865", "LoginTCPPort");
  (* rfc2865.rs:1213 *) ("rfc2865", "NasPortType");
  (* rfc2865.rs:1235 *) ("rfc2865", "ServiceType");
  (* rfc2865.rs:1248 *) ("rfc2865", "TerminationAction");
  (* rfc2866.rs:384 *) ("rfc2866", "AcctAuthentic");
  (* rfc2866.rs:390 *) ("rfc2866", "AcctStatusType");
  (* rfc2866.rs:399 *) ("rfc2866", "AcctTerminateCause");
  (* rfc2868.rs:397 *) ("rfc2868", "TunnelMediumType");
  (* rfc2868.rs:415 *) ("rfc2868", "TunnelType");
  (* rfc2869.rs:527 *) ("rfc2869", "ArapZoneAccess");
  (* rfc2869.rs:532 *) ("rfc2869", "Prompt");
  (* rfc3576.rs:73 *) ("rfc3576", "ErrorCause");
  (* rfc4675.rs:145 *) ("rfc4675", "IngressFilters");
  (* rfc5607.rs:158 *) ("rfc5607", "FramedManagement");
  (* rfc5607.rs:168 *) ("rfc5607", "ManagementTransportProtection");
  (* rfc6677.rs:58 *) ("rfc6677", "EapLowerLayer")
].

(** ** The enumerated values: module, constant, module qualifier of its type, type, value *)
Definition values : list (string * string * string * string * N) := [
  (* rfc2865.rs:1179 *) ("rfc2865", "FRAMED_COMPRESSION_NONE", "", "FramedCompression", 0);
  (* rfc2865.rs:1180 *) ("rfc2865", "FRAMED_COMPRESSION_VAN_JACOBSON_TCP_IP", "", "FramedCompression", 1);
  (* rfc2865.rs:1181 *) ("rfc2865", "FRAMED_COMPRESSION_IPX_HEADER_COMPRESSION", "", "FramedCompression", 2);
  (* rfc2865.rs:1182 *) ("rfc2865", "FRAMED_COMPRESSION_STAC_LZS", "", "FramedCompression", 3);
  (* rfc2865.rs:1185 *) ("rfc2865", "FRAMED_PROTOCOL_PPP", "", "FramedProtocol", 1);
  (* rfc2865.rs:1186 *) ("rfc2865", "FRAMED_PROTOCOL_SLIP", "", "FramedProtocol", 2);
  (* rfc2865.rs:1187 *) ("rfc2865", "FRAMED_PROTOCOL_ARAP", "", "FramedProtocol", 3);
  (* rfc2865.rs:1188 *) ("rfc2865", "FRAMED_PROTOCOL_GANDALF_SLML", "", "FramedProtocol", 4);
  (* rfc2865.rs:1189 *) ("rfc2865", "FRAMED_PROTOCOL_XYLOGICS_IPX_SLIP", "", "FramedProtocol", 5);
  (* rfc2865.rs:1190 *) ("rfc2865", "FRAMED_PROTOCOL_X_75_SYNCHRONOUS", "", "FramedProtocol", 6);
  (* rfc2865.rs:1193 *) ("rfc2865", "FRAMED_ROUTING_NONE", "", "FramedRouting", 0);
  (* rfc2865.rs:1194 *) ("rfc2865", "FRAMED_ROUTING_BROADCAST", "", "FramedRouting", 1);
  (* rfc2865.rs:1195 *) ("rfc2865", "FRAMED_ROUTING_LISTEN", "", "FramedRouting", 2);
  (* rfc2865.rs:1196 *) ("rfc2865", "FRAMED_ROUTING_BROADCAST_LISTEN", "", "FramedRouting", 3);
  (* rfc2865.rs:1199 *) ("rfc2865", "LOGIN_SERVICE_TELNET", "", "LoginService", 0);
  (* rfc2865.rs:1200 *) ("rfc2865", "LOGIN_SERVICE_RLOGIN", "", "LoginService", 1);
  (* rfc2865.rs:1201 *) ("rfc2865", "LOGIN_SERVICE_TCP_CLEAR", "", "LoginService", 2);
  (* rfc2865.rs:1202 *) ("rfc2865", "LOGIN_SERVICE_PORT_MASTER", "", "LoginService", 3);
  (* rfc2865.rs:1203 *) ("rfc2865", "LOGIN_SERVICE_LAT", "", "LoginService", 4);
  (* rfc2865.rs:1204 *) ("rfc2865", "LOGIN_SERVICE_X25_PAD", "", "LoginService", 5);
  (* rfc2865.rs:1205 *) ("rfc2865", "LOGIN_SERVICE_X25_T3POS", "", "LoginService", 6);
  (* rfc2865.rs:1206 *) ("rfc2865", "LOGIN_SERVICE_TCP_CLEAR_QUIET", "", "LoginService", 8);
  (* rfc2865.rs:1209 *) ("rfc2865", "LOGIN_TCP_PORT_TELNET", "", "LoginTCPPort", 23);
  (* rfc2865.rs:1210 *) ("rfc2865", "LOGIN_TCP_PORT_RLOGIN", "", "LoginTCPPort", 513);
  (* rfc2865.rs:1211 *) ("rfc2865", "LOGIN_TCP_PORT_RSH", "", "LoginTCPPort", 514);
  (* rfc2865.rs:1214 *) ("rfc2865", "NAS_PORT_TYPE_ASYNC", "", "NasPortType", 0);
  (* rfc2865.rs:1215 *) ("rfc2865", "NAS_PORT_TYPE_SYNC", "", "NasPortType", 1);
  (* rfc2865.rs:1216 *) ("rfc2865", "NAS_PORT_TYPE_ISDN", "", "NasPortType", 2);
  (* rfc2865.rs:1217 *) ("rfc2865", "NAS_PORT_TYPE_ISDN_V120", "", "NasPortType", 3);
  (* rfc2865.rs:1218 *) ("rfc2865", "NAS_PORT_TYPE_ISDN_V110", "", "NasPortType", 4);
  (* rfc2865.rs:1219 *) ("rfc2865", "NAS_PORT_TYPE_VIRTUAL", "", "NasPortType", 5);
  (* rfc2865.rs:1220 *) ("rfc2865", "NAS_PORT_TYPE_PIAFS", "", "NasPortType", 6);
  (* rfc2865.rs:1221 *) ("rfc2865", "NAS_PORT_TYPE_HDLC_CLEAR_CHANNEL", "", "NasPortType", 7);
  (* rfc2865.rs:1222 *) ("rfc2865", "NAS_PORT_TYPE_X_25", "", "NasPortType", 8);
  (* rfc2865.rs:1223 *) ("rfc2865", "NAS_PORT_TYPE_X_75", "", "NasPortType", 9);
  (* rfc2865.rs:1224 *) ("rfc2865", "NAS_PORT_TYPE_G_3_FAX", "", "NasPortType", 10);
  (* rfc2865.rs:1225 *) ("rfc2865", "NAS_PORT_TYPE_SDSL", "", "NasPortType", 11);
  (* rfc2865.rs:1226 *) ("rfc2865", "NAS_PORT_TYPE_ADSL_CAP", "", "NasPortType", 12);
  (* rfc2865.rs:1227 *) ("rfc2865", "NAS_PORT_TYPE_ADSL_DMT", "", "NasPortType", 13);
  (* rfc2865.rs:1228 *) ("rfc2865", "NAS_PORT_TYPE_IDSL", "", "NasPortType", 14);
  (* rfc2865.rs:1229 *) ("rfc2865", "NAS_PORT_TYPE_ETHERNET", "", "NasPortType", 15);
  (* rfc2865.rs:1230 *) ("rfc2865", "NAS_PORT_TYPE_X_DSL", "", "NasPortType", 16);
  (* rfc2865.rs:1231 *) ("rfc2865", "NAS_PORT_TYPE_CABLE", "", "NasPortType", 17);
  (* rfc2865.rs:1232 *) ("rfc2865", "NAS_PORT_TYPE_WIRELESS_OTHER", "", "NasPortType", 18);
  (* rfc2865.rs:1233 *) ("rfc2865", "NAS_PORT_TYPE_WIRELESS_802_11", "", "NasPortType", 19);
  (* rfc2865.rs:1236 *) ("rfc2865", "SERVICE_TYPE_LOGIN_USER", "", "ServiceType", 1);
  (* rfc2865.rs:1237 *) ("rfc2865", "SERVICE_TYPE_FRAMED_USER", "", "ServiceType", 2);
  (* rfc2865.rs:1238 *) ("rfc2865", "SERVICE_TYPE_CALLBACK_LOGIN_USER", "", "ServiceType", 3);
  (* rfc2865.rs:1239 *) ("rfc2865", "SERVICE_TYPE_CALLBACK_FRAMED_USER", "", "ServiceType", 4);
  (* rfc2865.rs:1240 *) ("rfc2865", "SERVICE_TYPE_OUTBOUND_USER", "", "ServiceType", 5);
  (* rfc2865.rs:1241 *) ("rfc2865", "SERVICE_TYPE_ADMINISTRATIVE_USER", "", "ServiceType", 6);
  (* rfc2865.rs:1242 *) ("rfc2865", "SERVICE_TYPE_NAS_PROMPT_USER", "", "ServiceType", 7);
  (* rfc2865.rs:1243 *) ("rfc2865", "SERVICE_TYPE_AUTHENTICATE_ONLY", "", "ServiceType", 8);
  (* rfc2865.rs:1244 *) ("rfc2865", "SERVICE_TYPE_CALLBACK_NAS_PROMPT", "", "ServiceType", 9);
  (* rfc2865.rs:1245 *) ("rfc2865", "SERVICE_TYPE_CALL_CHECK", "", "ServiceType", 10);
  (* rfc2865.rs:1246 *) ("rfc2865", "SERVICE_TYPE_CALLBACK_ADMINISTRATIVE", "", "ServiceType", 11);
  (* rfc2865.rs:1249 *) ("rfc2865", "TERMINATION_ACTION_DEFAULT", "", "TerminationAction", 0);
  (* rfc2865.rs:1250 *) ("rfc2865", "TERMINATION_ACTION_RADIUS_REQUEST", "", "TerminationAction", 1);
  (* rfc2866.rs:385 *) ("rfc2866", "ACCT_AUTHENTIC_RADIUS", "", "AcctAuthentic", 1);
  (* rfc2866.rs:386 *) ("rfc2866", "ACCT_AUTHENTIC_LOCAL", "", "AcctAuthentic", 2);
  (* rfc2866.rs:387 *) ("rfc2866", "ACCT_AUTHENTIC_REMOTE", "", "AcctAuthentic", 3);
  (* rfc2866.rs:388 *) ("rfc2866", "ACCT_AUTHENTIC_DIAMETER", "", "AcctAuthentic", 4);
  (* rfc2866.rs:391 *) ("rfc2866", "ACCT_STATUS_TYPE_START", "", "AcctStatusType", 1);
  (* rfc2866.rs:392 *) ("rfc2866", "ACCT_STATUS_TYPE_STOP", "", "AcctStatusType", 2);
  (* rfc2866.rs:393 *) ("rfc2866", "ACCT_STATUS_TYPE_ALIVE", "", "AcctStatusType", 3);
  (* rfc2866.rs:394 *) ("rfc2866", "ACCT_STATUS_TYPE_INTERIM_UPDATE", "", "AcctStatusType", 3);
  (* rfc2866.rs:395 *) ("rfc2866", "ACCT_STATUS_TYPE_ACCOUNTING_ON", "", "AcctStatusType", 7);
  (* rfc2866.rs:396 *) ("rfc2866", "ACCT_STATUS_TYPE_ACCOUNTING_OFF", "", "AcctStatusType", 8);
  (* rfc2866.rs:397 *) ("rfc2866", "ACCT_STATUS_TYPE_FAILED", "", "AcctStatusType", 15);
  (* rfc2866.rs:400 *) ("rfc2866", "ACCT_TERMINATE_CAUSE_USER_REQUEST", "", "AcctTerminateCause", 1);
  (* rfc2866.rs:401 *) ("rfc2866", "ACCT_TERMINATE_CAUSE_LOST_CARRIER", "", "AcctTerminateCause", 2);
  (* rfc2866.rs:402 *) ("rfc2866", "ACCT_TERMINATE_CAUSE_LOST_SERVICE", "", "AcctTerminateCause", 3);
  (* rfc2866.rs:403 *) ("rfc2866", "ACCT_TERMINATE_CAUSE_IDLE_TIMEOUT", "", "AcctTerminateCause", 4);
  (* rfc2866.rs:404 *) ("rfc2866", "ACCT_TERMINATE_CAUSE_SESSION_TIMEOUT", "", "AcctTerminateCause", 5);
  (* rfc2866.rs:405 *) ("rfc2866", "ACCT_TERMINATE_CAUSE_ADMIN_RESET", "", "AcctTerminateCause", 6);
  (* rfc2866.rs:406 *) ("rfc2866", "ACCT_TERMINATE_CAUSE_ADMIN_REBOOT", "", "AcctTerminateCause", 7);
  (* rfc2866.rs:407 *) ("rfc2866", "ACCT_TERMINATE_CAUSE_PORT_ERROR", "", "AcctTerminateCause", 8);
  (* rfc2866.rs:408 *) ("rfc2866", "ACCT_TERMINATE_CAUSE_NAS_ERROR", "", "AcctTerminateCause", 9);
  (* rfc2866.rs:409 *) ("rfc2866", "ACCT_TERMINATE_CAUSE_NAS_REQUEST", "", "AcctTerminateCause", 10);
  (* rfc2866.rs:410 *) ("rfc2866", "ACCT_TERMINATE_CAUSE_NAS_REBOOT", "", "AcctTerminateCause", 11);
  (* rfc2866.rs:411 *) ("rfc2866", "ACCT_TERMINATE_CAUSE_PORT_UNNEEDED", "", "AcctTerminateCause", 12);
  (* rfc2866.rs:412 *) ("rfc2866", "ACCT_TERMINATE_CAUSE_PORT_PREEMPTED", "", "AcctTerminateCause", 13);
  (* rfc2866.rs:413 *) ("rfc2866", "ACCT_TERMINATE_CAUSE_PORT_SUSPENDED", "", "AcctTerminateCause", 14);
  (* rfc2866.rs:414 *) ("rfc2866", "ACCT_TERMINATE_CAUSE_SERVICE_UNAVAILABLE", "", "AcctTerminateCause", 15);
  (* rfc2866.rs:415 *) ("rfc2866", "ACCT_TERMINATE_CAUSE_CALLBACK", "", "AcctTerminateCause", 16);
  (* rfc2866.rs:416 *) ("rfc2866", "ACCT_TERMINATE_CAUSE_USER_ERROR", "", "AcctTerminateCause", 17);
  (* rfc2866.rs:417 *) ("rfc2866", "ACCT_TERMINATE_CAUSE_HOST_REQUEST", "", "AcctTerminateCause", 18);
  (* rfc2867.rs:84 *) ("rfc2867", "ACCT_STATUS_TYPE_TUNNEL_START", "rfc2866", "AcctStatusType", 9);
  (* rfc2867.rs:85 *) ("rfc2867", "ACCT_STATUS_TYPE_TUNNEL_STOP", "rfc2866", "AcctStatusType", 10);
  (* rfc2867.rs:86 *) ("rfc2867", "ACCT_STATUS_TYPE_TUNNEL_REJECT", "rfc2866", "AcctStatusType", 11);
  (* rfc2867.rs:87 *) ("rfc2867", "ACCT_STATUS_TYPE_TUNNEL_LINK_START", "rfc2866", "AcctStatusType", 12);
  (* rfc2867.rs:88 *) ("rfc2867", "ACCT_STATUS_TYPE_TUNNEL_LINK_STOP", "rfc2866", "AcctStatusType", 13);
  (* rfc2867.rs:89 *) ("rfc2867", "ACCT_STATUS_TYPE_TUNNEL_LINK_REJECT", "rfc2866", "AcctStatusType", 14);
  (* rfc2868.rs:398 *) ("rfc2868", "TUNNEL_MEDIUM_TYPE_IP", "", "TunnelMediumType", 1);
  (* rfc2868.rs:399 *) ("rfc2868", "TUNNEL_MEDIUM_TYPE_I_PV_4", "", "TunnelMediumType", 1);
  (* rfc2868.rs:400 *) ("rfc2868", "TUNNEL_MEDIUM_TYPE_I_PV_6", "", "TunnelMediumType", 2);
  (* rfc2868.rs:401 *) ("rfc2868", "TUNNEL_MEDIUM_TYPE_NSAP", "", "TunnelMediumType", 3);
  (* rfc2868.rs:402 *) ("rfc2868", "TUNNEL_MEDIUM_TYPE_HDLC", "", "TunnelMediumType", 4);
  (* rfc2868.rs:403 *) ("rfc2868", "TUNNEL_MEDIUM_TYPE_BBN_1822", "", "TunnelMediumType", 5);
  (* rfc2868.rs:404 *) ("rfc2868", "TUNNEL_MEDIUM_TYPE_IEEE_802", "", "TunnelMediumType", 6);
  (* rfc2868.rs:405 *) ("rfc2868", "TUNNEL_MEDIUM_TYPE_E_163", "", "TunnelMediumType", 7);
  (* rfc2868.rs:406 *) ("rfc2868", "TUNNEL_MEDIUM_TYPE_E_164", "", "TunnelMediumType", 8);
  (* rfc2868.rs:407 *) ("rfc2868", "TUNNEL_MEDIUM_TYPE_F_69", "", "TunnelMediumType", 9);
  (* rfc2868.rs:408 *) ("rfc2868", "TUNNEL_MEDIUM_TYPE_X_121", "", "TunnelMediumType", 10);
  (* rfc2868.rs:409 *) ("rfc2868", "TUNNEL_MEDIUM_TYPE_IPX", "", "TunnelMediumType", 11);
  (* rfc2868.rs:410 *) ("rfc2868", "TUNNEL_MEDIUM_TYPE_APPLETALK", "", "TunnelMediumType", 12);
  (* rfc2868.rs:411 *) ("rfc2868", "TUNNEL_MEDIUM_TYPE_DEC_NET_IV", "", "TunnelMediumType", 13);
  (* rfc2868.rs:412 *) ("rfc2868", "TUNNEL_MEDIUM_TYPE_BANYAN_VINES", "", "TunnelMediumType", 14);
  (* rfc2868.rs:413 *) ("rfc2868", "TUNNEL_MEDIUM_TYPE_E_164_NSAP", "", "TunnelMediumType", 15);
  (* rfc2868.rs:416 *) ("rfc2868", "TUNNEL_TYPE_PPTP", "", "TunnelType", 1);
  (* rfc2868.rs:417 *) ("rfc2868", "TUNNEL_TYPE_L2F", "", "TunnelType", 2);
  (* rfc2868.rs:418 *) ("rfc2868", "TUNNEL_TYPE_L2TP", "", "TunnelType", 3);
  (* rfc2868.rs:419 *) ("rfc2868", "TUNNEL_TYPE_ATMP", "", "TunnelType", 4);
  (* rfc2868.rs:420 *) ("rfc2868", "TUNNEL_TYPE_VTP", "", "TunnelType", 5);
  (* rfc2868.rs:421 *) ("rfc2868", "TUNNEL_TYPE_AH", "", "TunnelType", 6);
  (* rfc2868.rs:422 *) ("rfc2868", "TUNNEL_TYPE_IP", "", "TunnelType", 7);
  (* rfc2868.rs:423 *) ("rfc2868", "TUNNEL_TYPE_MIN_IP", "", "TunnelType", 8);
  (* rfc2868.rs:424 *) ("rfc2868", "TUNNEL_TYPE_ESP", "", "TunnelType", 9);
  (* rfc2868.rs:425 *) ("rfc2868", "TUNNEL_TYPE_GRE", "", "TunnelType", 10);
  (* rfc2868.rs:426 *) ("rfc2868", "TUNNEL_TYPE_DVS", "", "TunnelType", 11);
  (* rfc2868.rs:427 *) ("rfc2868", "TUNNEL_TYPE_IP_IN_IP", "", "TunnelType", 12);
  (* rfc2869.rs:528 *) ("rfc2869", "ARAP_ZONE_ACCESS_DEFAULT_ZONE", "", "ArapZoneAccess", 1);
  (* rfc2869.rs:529 *) ("rfc2869", "ARAP_ZONE_ACCESS_ZONE_FILTER_INCLUSIVE", "", "ArapZoneAccess", 2);
  (* rfc2869.rs:530 *) ("rfc2869", "ARAP_ZONE_ACCESS_ZONE_FILTER_EXCLUSIVE", "", "ArapZoneAccess", 4);
  (* rfc2869.rs:533 *) ("rfc2869", "PROMPT_NO_ECHO", "", "Prompt", 0);
  (* rfc2869.rs:534 *) ("rfc2869", "PROMPT_ECHO", "", "Prompt", 1);
  (* rfc3576.rs:74 *) ("rfc3576", "ERROR_CAUSE_RESIDUAL_CONTEXT_REMOVED", "", "ErrorCause", 201);
  (* rfc3576.rs:75 *) ("rfc3576", "ERROR_CAUSE_INVALID_EAP_PACKET", "", "ErrorCause", 202);
  (* rfc3576.rs:76 *) ("rfc3576", "ERROR_CAUSE_UNSUPPORTED_ATTRIBUTE", "", "ErrorCause", 401);
  (* rfc3576.rs:77 *) ("rfc3576", "ERROR_CAUSE_MISSING_ATTRIBUTE", "", "ErrorCause", 402);
  (* rfc3576.rs:78 *) ("rfc3576", "ERROR_CAUSE_NAS_IDENTIFICATION_MISMATCH", "", "ErrorCause", 403);
  (* rfc3576.rs:79 *) ("rfc3576", "ERROR_CAUSE_INVALID_REQUEST", "", "ErrorCause", 404);
  (* rfc3576.rs:80 *) ("rfc3576", "ERROR_CAUSE_UNSUPPORTED_SERVICE", "", "ErrorCause", 405);
  (* rfc3576.rs:81 *) ("rfc3576", "ERROR_CAUSE_UNSUPPORTED_EXTENSION", "", "ErrorCause", 406);
  (* rfc3576.rs:82 *) ("rfc3576", "ERROR_CAUSE_ADMINISTRATIVELY_PROHIBITED", "", "ErrorCause", 501);
  (* rfc3576.rs:83 *) ("rfc3576", "ERROR_CAUSE_PROXY_REQUEST_NOT_ROUTABLE", "", "ErrorCause", 502);
  (* rfc3576.rs:84 *) ("rfc3576", "ERROR_CAUSE_SESSION_CONTEXT_NOT_FOUND", "", "ErrorCause", 503);
  (* rfc3576.rs:85 *) ("rfc3576", "ERROR_CAUSE_SESSION_CONTEXT_NOT_REMOVABLE", "", "ErrorCause", 504);
  (* rfc3576.rs:86 *) ("rfc3576", "ERROR_CAUSE_PROXY_PROCESSING_ERROR", "", "ErrorCause", 505);
  (* rfc3576.rs:87 *) ("rfc3576", "ERROR_CAUSE_RESOURCES_UNAVAILABLE", "", "ErrorCause", 506);
  (* rfc3576.rs:88 *) ("rfc3576", "ERROR_CAUSE_REQUEST_INITIATED", "", "ErrorCause", 507);
  (* rfc3576.rs:90 *) ("rfc3576", "SERVICE_TYPE_AUTHORIZE_ONLY", "rfc2865", "ServiceType", 17);
  (* rfc3580.rs:33 *) ("rfc3580", "ACCT_TERMINATE_CAUSE_SUPPLICANT_RESTART", "rfc2866", "AcctTerminateCause", 19);
  (* rfc3580.rs:34 *) ("rfc3580", "ACCT_TERMINATE_CAUSE_REAUTHENTICATION_FAILURE", "rfc2866", "AcctTerminateCause", 20);
  (* rfc3580.rs:35 *) ("rfc3580", "ACCT_TERMINATE_CAUSE_PORT_REINIT", "rfc2866", "AcctTerminateCause", 21);
  (* rfc3580.rs:36 *) ("rfc3580", "ACCT_TERMINATE_CAUSE_PORT_DISABLED", "rfc2866", "AcctTerminateCause", 22);
  (* rfc3580.rs:38 *) ("rfc3580", "NAS_PORT_TYPE_TOKEN_RING", "rfc2865", "NasPortType", 20);
  (* rfc3580.rs:39 *) ("rfc3580", "NAS_PORT_TYPE_FDDI", "rfc2865", "NasPortType", 21);
  (* rfc3580.rs:41 *) ("rfc3580", "TUNNEL_TYPE_VLAN", "rfc2868", "TunnelType", 13);
  (* rfc4603.rs:30 *) ("rfc4603", "NAS_PORT_TYPE_PP_PO_A", "rfc2865", "NasPortType", 30);
  (* rfc4603.rs:31 *) ("rfc4603", "NAS_PORT_TYPE_PP_PO_EO_A", "rfc2865", "NasPortType", 31);
  (* rfc4603.rs:32 *) ("rfc4603", "NAS_PORT_TYPE_PP_PO_EO_E", "rfc2865", "NasPortType", 32);
  (* rfc4603.rs:33 *) ("rfc4603", "NAS_PORT_TYPE_PP_PO_EO_VLAN", "rfc2865", "NasPortType", 33);
  (* rfc4603.rs:34 *) ("rfc4603", "NAS_PORT_TYPE_PP_PO_EO_QIN_Q", "rfc2865", "NasPortType", 34);
  (* rfc4675.rs:146 *) ("rfc4675", "INGRESS_FILTERS_ENABLED", "", "IngressFilters", 1);
  (* rfc4675.rs:147 *) ("rfc4675", "INGRESS_FILTERS_DISABLED", "", "IngressFilters", 2);
  (* rfc5176.rs:23 *) ("rfc5176", "ERROR_CAUSE_INVALID_ATTRIBUTE_VALUE", "rfc3576", "ErrorCause", 407);
  (* rfc5176.rs:24 *) ("rfc5176", "ERROR_CAUSE_MULTIPLE_SESSION_SELECTION_UNSUPPORTED", "rfc3576", "ErrorCause", 508);
  (* rfc5607.rs:159 *) ("rfc5607", "FRAMED_MANAGEMENT_SNMP", "", "FramedManagement", 1);
  (* rfc5607.rs:160 *) ("rfc5607", "FRAMED_MANAGEMENT_WEB_BASED", "", "FramedManagement", 2);
  (* rfc5607.rs:161 *) ("rfc5607", "FRAMED_MANAGEMENT_NETCONF", "", "FramedManagement", 3);
  (* rfc5607.rs:162 *) ("rfc5607", "FRAMED_MANAGEMENT_FTP", "", "FramedManagement", 4);
  (* rfc5607.rs:163 *) ("rfc5607", "FRAMED_MANAGEMENT_TFTP", "", "FramedManagement", 5);
  (* rfc5607.rs:164 *) ("rfc5607", "FRAMED_MANAGEMENT_SFTP", "", "FramedManagement", 6);
  (* rfc5607.rs:165 *) ("rfc5607", "FRAMED_MANAGEMENT_RCP", "", "FramedManagement", 7);
  (* rfc5607.rs:166 *) ("rfc5607", "FRAMED_MANAGEMENT_SCP", "", "FramedManagement", 8);
  (* rfc5607.rs:169 *) ("rfc5607", "MANAGEMENT_TRANSPORT_PROTECTION_NO_PROTECTION", "", "ManagementTransportProtection", 1);
  (* rfc5607.rs:170 *) ("rfc5607", "MANAGEMENT_TRANSPORT_PROTECTION_INTEGRITY_PROTECTION", "", "ManagementTransportProtection", 2);
  (* rfc5607.rs:171 *) ("rfc5607", "MANAGEMENT_TRANSPORT_PROTECTION_INTEGRITY_CONFIDENTIALITY_PROTECTION", "", "ManagementTransportProtection", 3);
  (* rfc5607.rs:174 *) ("rfc5607", "SERVICE_TYPE_FRAMED_MANAGEMENT", "rfc2865", "ServiceType", 18);
  (* rfc6677.rs:59 *) ("rfc6677", "EAP_LOWER_LAYER_WIRED_IEEE_802_1X", "", "EapLowerLayer", 1);
  (* rfc6677.rs:60 *) ("rfc6677", "EAP_LOWER_LAYER_IEEE_802_1X_NO_PREAUTH", "", "EapLowerLayer", 2);
  (* rfc6677.rs:61 *) ("rfc6677", "EAP_LOWER_LAYER_IEEE_802_1X_PREAUTH", "", "EapLowerLayer", 3);
  (* rfc6677.rs:62 *) ("rfc6677", "EAP_LOWER_LAYER_IEEE_802_1_6E", "", "EapLowerLayer", 4);
  (* rfc6677.rs:63 *) ("rfc6677", "EAP_LOWER_LAYER_IK_EV_2", "", "EapLowerLayer", 5);
  (* rfc6677.rs:64 *) ("rfc6677", "EAP_LOWER_LAYER_PPP", "", "EapLowerLayer", 6);
  (* rfc6677.rs:65 *) ("rfc6677", "EAP_LOWER_LAYER_PANA_NO_PREAUTH", "", "EapLowerLayer", 7);
  (* rfc6677.rs:66 *) ("rfc6677", "EAP_LOWER_LAYER_GSS_API", "", "EapLowerLayer", 8);
  (* rfc6677.rs:67 *) ("rfc6677", "EAP_LOWER_LAYER_PANA_PREAUTH", "", "EapLowerLayer", 9)
].
