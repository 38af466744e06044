(** A TCP connection from the moment it is accepted: PROXY protocol header,
    ClientHello, dispatch. *)
From Verif Require Import Base IPModel ConnModel HelloModel RouteModel ProxyHdrModel.

(** backend.go:243-252 checkIP: the address of a net.Addr. *)
Definition addr_of (a : naddr) : addr :=
  match a with TCPAddr i _ | UDPAddr i _ => AddrIP i | OtherAddr => AddrOther end.

(** proxy.go:1136-1168: the header, then the ClientHello, of which the network
    delivers [got1] and [got2] bytes to the two peeks; then the dispatch of
    handleConnection (1170-1216).  When reading the header fails, so does the
    first peek. *)
Definition accept_tcp (read : str -> header_read) (from : list ipnet) (p : proxy) (e : env) (numOpen : nat)
    (peer : naddr) (bytes : str) (got1 got2 : nat) : action :=
  let '(src, data) := receive read from peer bytes in
  handle_connection p e numOpen (addr_of src)
    (match data with
     | Some d => snd (peek_client_hello (fresh_conn d) got1 got2)
     | None => Err
     end).
