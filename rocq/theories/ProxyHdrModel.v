(** PROXY protocol headers: the one that the proxy sends to its backends
    (backend.go) and the ones it accepts from load balancers (proxy.go).
    The headers themselves are built and read by the library
    github.com/pires/go-proxyproto v0.8.0, which is modelled here from its
    documented behaviour. *)
From Coq Require Import DecimalString DecimalN.
From Verif Require Import Base IPModel.

(** net.Addr: *net.TCPAddr, *net.UDPAddr, or any other type. *)
Inductive naddr :=
| TCPAddr (a : ip) (port : N)
| UDPAddr (a : ip) (port : N)
| OtherAddr.

(** Artefact: one byte as a character. *)
Definition chr (n : N) : ascii := ascii_of_N n.

(** encoding/binary BigEndian.PutUint16 *)
Definition be16 (n : N) : str := [chr (n / 256); chr (n mod 256)]%N.

(** strconv.Itoa of a number that is not negative *)
Definition dec (n : N) : str := list_ascii_of_string (NilEmpty.string_of_uint (N.to_uint n)).

(** Artefact: the characters that the first version of the header uses. *)
Definition sp : ascii := " "%char.
(** Artefact: carriage return. *)
Definition cr : ascii := chr 13.
(** Artefact: line feed. *)
Definition lf : ascii := chr 10.
(** Artefact: full stop, between the bytes of an address. *)
Definition dot : ascii := "."%char.

(** net.IP.To16 *)
Definition to16 (a : ip) : option ip :=
  if List.length a =? 4 then Some (v4_prefix ++ a)
  else if List.length a =? 16 then Some a else None.

(** net.IP.String of an IPv4 address *)
Definition dotted (a : ip) : str := join dot (map dec a).

(** net.IP.String.  Simplified: [s6] writes the addresses that are not IPv4
    ones; it is any function here. *)
Definition ip_string (s6 : ip -> str) (a : ip) : str :=
  match to4 a with Some b => dotted b | None => s6 a end.

(** proxyproto.AddressFamilyAndProtocol, the values that can occur *)
Inductive transport := Unspec | TCPv4 | TCPv6 | UDPv4 | UDPv6.

(** proxyproto.AddressFamilyAndProtocol.toByte *)
Definition transport_byte (t : transport) : N :=
  match t with Unspec => 0 | TCPv4 => 17 | UDPv4 => 18 | TCPv6 => 33 | UDPv6 => 34 end%N.

(** proxyproto.HeaderProxyFromAddrs: the protocol for a pair of addresses. *)
Definition transport_of (src dst : naddr) : transport :=
  match src, dst with
  | TCPAddr a _, TCPAddr _ _ =>
      match to4 a with Some _ => TCPv4 | None => if List.length a =? 16 then TCPv6 else Unspec end
  | UDPAddr a _, UDPAddr _ _ =>
      match to4 a with Some _ => UDPv4 | None => if List.length a =? 16 then UDPv6 else Unspec end
  | _, _ => Unspec
  end.

(** proxyproto.HeaderProxyFromAddrs: versions other than 1 and 2 become 2. *)
Definition clamp_version (v : N) : N := (if (v <? 1) || (2 <? v) then 2 else v)%N.

(** Artefact: the IP and the port of an address. *)
Definition addr_ip (a : naddr) : ip := match a with TCPAddr a _ | UDPAddr a _ => a | OtherAddr => [] end.
(** Artefact: the port of an address. *)
Definition addr_port (a : naddr) : N := match a with TCPAddr _ p | UDPAddr _ p => p | OtherAddr => 0%N end.

(** proxyproto.TLV *)
Record tlv := { tlv_type : N; tlv_value : str }.

(** proxyproto.JoinTLVs: a type byte, two bytes of length, the value; an error
    for values of 2^16 bytes or more. *)
Fixpoint join_tlvs (l : list tlv) : option str :=
  match l with
  | [] => Some []
  | t :: l' =>
      if (65535 <? N.of_nat (List.length (tlv_value t)))%N then None
      else match join_tlvs l' with
           | None => None
           | Some r => Some (chr (tlv_type t) :: be16 (N.of_nat (List.length (tlv_value t))) ++ tlv_value t ++ r)
           end
  end.

(** proxyproto.Header.formatVersion1 *)
Definition format_v1 (s6 : ip -> str) (t : transport) (src dst : naddr) : option str :=
  let line proto a b :=
    match a, b with
    | Some a, Some b =>
        Some (lit "PROXY " ++ proto ++ [sp] ++ ip_string s6 a ++ [sp] ++ ip_string s6 b ++ [sp] ++
              dec (addr_port src) ++ [sp] ++ dec (addr_port dst) ++ [cr; lf])
    | _, _ => None
    end in
  match t with
  | TCPv4 => line (lit "TCP4") (to4 (addr_ip src)) (to4 (addr_ip dst))
  | TCPv6 => line (lit "TCP6") (to16 (addr_ip src)) (to16 (addr_ip dst))
  | _ => Some (lit "PROXY UNKNOWN" ++ [cr; lf])
  end.

(** proxyproto.SIGV2 *)
Definition sig_v2 : str := map chr [13; 10; 13; 10; 0; 13; 10; 81; 85; 73; 84; 10]%N.

(** proxyproto.Header.formatVersion2 for the command PROXY; [tlvs] is the
    result of JoinTLVs. *)
Definition format_v2 (t : transport) (src dst : naddr) (tlvs : str) : option str :=
  let finish (addrs : str) :=
    let n := N.of_nat (List.length addrs + List.length tlvs) in
    if (65535 <? n)%N then None
    else Some (sig_v2 ++ [chr 33; chr (transport_byte t)] ++ be16 n ++ addrs ++ tlvs) in
  let with_ips a b :=
    match a, b with
    | Some a, Some b => finish (map chr a ++ map chr b ++ be16 (addr_port src) ++ be16 (addr_port dst))
    | _, _ => None
    end in
  match t with
  | Unspec => finish []
  | TCPv4 | UDPv4 => with_ips (to4 (addr_ip src)) (to4 (addr_ip dst))
  | TCPv6 | UDPv6 => with_ips (to16 (addr_ip src)) (to16 (addr_ip dst))
  end.

(** The client's connection, as far as the header depends on it: RemoteAddr,
    LocalAddr, and the annotations that connServerName and connProto
    (util.go:81-86, 88-93) return. *)
Record client := { cl_remote : naddr; cl_local : naddr; cl_name : str; cl_proto : str }.

(** backend.go:196-208: the TLVs PP2_TYPE_AUTHORITY (2) and PP2_TYPE_ALPN (1) *)
Definition client_tlvs (c : client) : list tlv :=
  (if str_eqb (cl_name c) [] then [] else [{| tlv_type := 2; tlv_value := cl_name c |}]) ++
  (if str_eqb (cl_proto c) [] then [] else [{| tlv_type := 1; tlv_value := cl_proto c |}]).

(** backend.go:193-216 writeProxyHeader.  None is an error, and then nothing is
    written. *)
Definition write_proxy_header (s6 : ip -> str) (v : N) (c : client) : option str :=
  let t := transport_of (cl_remote c) (cl_local c) in
  match join_tlvs (client_tlvs c) with
  | None => None
  | Some tlvs =>
      if (clamp_version v =? 1)%N then format_v1 s6 t (cl_remote c) (cl_local c)
      else format_v2 t (cl_remote c) (cl_local c) tlvs
  end.

(** ** Accepting headers *)

(** proxy.go:1105-1118 acceptProxyHeader *)
Definition accept_proxy_header (from : list ipnet) (peer : naddr) : bool :=
  match peer with
  | TCPAddr a _ => any_contains from a
  | _ => false
  end.

(** What proxyproto.Read makes of the bytes of a stream: no header, a broken
    one, one with the command LOCAL (or the first version's UNKNOWN), or one
    with a source address.  [rest] is what follows the header. *)
Inductive header_read :=
| NoHeader
| BadHeader
| LocalHeader (rest : str)
| ProxyHeader (src : naddr) (rest : str).

(** proxy.go:1136-1139 with proxyproto.NewConn and its default policy: the
    address that RemoteAddr() returns from then on, and the bytes that Read()
    returns (None: Read fails). *)
Definition receive (read : str -> header_read) (from : list ipnet) (peer : naddr) (bytes : str)
  : naddr * option str :=
  if accept_proxy_header from peer then
    match read bytes with
    | NoHeader => (peer, Some bytes)
    | BadHeader => (peer, None)
    | LocalHeader rest => (peer, Some rest)
    | ProxyHeader src rest => (src, Some rest)
    end
  else (peer, Some bytes).
