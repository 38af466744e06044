(** The command tlsclient (tlsclient/main.go).

    Simplifications.  tls.LoadX509KeyPair and the dial itself are external.  What the server has
    sent is available to be read in pieces of any size; what has been written arrives in pieces of
    any size, in order.  Bytes that are written to standard output are not held back. *)
From Verif Require Import Base HttpModel HeadersModel PasskeyHttpModel OcspModel.
Open Scope nat_scope.

(** ** What is connected to *)

(** tlsclient/main.go:48-53: the flags that matter here and the arguments; an empty string is a flag
    that was not given. *)
Record args := { a_version : bool; a_key : str; a_cert : str; a_rest : list str }.
(** Artefact: how the command goes on. *)
Inductive start := Version | Usage | Go (addr : str) (with_cert : bool).
(** tlsclient/main.go:56-73. *)
Definition begin (a : args) : start :=
  if a_version a then Version
  else match a_rest a with
       | [addr] =>
           if xorb (str_eqb (a_key a) []) (str_eqb (a_cert a) []) then Usage
           else Go addr (negb (str_eqb (a_key a) []) && negb (str_eqb (a_cert a) []))
       | _ => Usage
       end.

(** tlsclient/main.go:79-83: the host and the port. *)
Definition host_port (addr : str) : str * str :=
  match split_host_port addr with
  | Some h => (h, port_of addr)
  | None => (addr, lit "443")
  end.

(** tlsclient/main.go:79-105: the address that is dialed and the name that the certificate of the
    server must have.  [local] and [google] are the answers of the two resolvers; [None]: an error. *)
Definition plan (addr : str) (local google : str -> option (list str)) : option (str * str) :=
  let '(host, port) := host_port addr in
  let found := match local host with Some l => Some l | None => google host end in
  match found with
  | Some (a :: _) => Some (join_host_port a port, host)
  | _ => None
  end.

(** ** The stapled OCSP response *)

(** time.Time{} in seconds: NextUpdate of a response that has none (library time). *)
Definition zero_time : Z := (-62135596800)%Z.

(** tlsclient/main.go:106-129 VerifyConnection, called after the chain and the name have been verified.
    [flag]: -ocsp; [peers]: the certificates as the server sent them; [None]: no response, or one
    that is not of status "successful" or cannot be parsed. *)
Definition verify (flag : bool) (now : Z) (peers : list cert) (staple : option wire) : bool :=
  if negb flag then true
  else match staple, peers with
       | None, _ => false
       | _, [] => false
       | Some w, c :: rest =>
           let issuer := match rest with i :: _ => i | [] => c end in
           match parse_response w (Some (ct_serial c)) (Some (ct_key issuer)) with
           | None => false
           | Some r =>
               if (rs_next r <? now)%Z then false
               else match rs_status r with Good => true | _ => false end
           end
       end.

(** ** Copying *)

(** Artefact: where a copy loop is: holding bytes that it has read, or done. *)
Inductive pc := Copying (buf : list ascii) | Finished.
(** Artefact: the state of the two loops (tlsclient/main.go:141-151, 158-168), of the server and of the
    network. *)
Record state := {
  s_in : list ascii;       (* everything that has come on standard input *)
  s_unread : list ascii;   (* the part that has not been read *)
  s_eof : bool;            (* standard input has ended *)
  s_inerr : bool;          (* reading from standard input fails *)
  up : pc;
  flight : list ascii;     (* written to the connection, but not arrived yet *)
  endq : bool;             (* the end of the input has been announced *)
  r_got : list ascii;      (* what the server has received *)
  r_end : bool;            (* the server has been told that the input has ended *)
  r_sent : list ascii;     (* what the server has sent *)
  r_unread : list ascii;   (* the part that has not been read *)
  r_fin : bool;            (* the server has ended the output in the regular way *)
  r_cut : bool;            (* the connection is broken *)
  out : list ascii;        (* what has been written to standard output *)
  down : pc;
  logged : bool;           (* an error has been written to standard error *)
  closed : bool;           (* the server has been told that the connection is over *)
  status : option nat      (* the command has ended with this status *)
}.
(** Artefact: connected, nothing has happened. *)
Definition init : state :=
  {| s_in := []; s_unread := []; s_eof := false; s_inerr := false; up := Copying []; flight := []; endq := false;
     r_got := []; r_end := false; r_sent := []; r_unread := []; r_fin := false; r_cut := false;
     out := []; down := Copying []; logged := false; closed := false; status := None |}.

(** Artefact: record updates: the input side. *)
Definition with_in (s : state) (sn un : list ascii) (e er : bool) : state :=
  {| s_in := sn; s_unread := un; s_eof := e; s_inerr := er; up := up s; flight := flight s; endq := endq s;
     r_got := r_got s; r_end := r_end s; r_sent := r_sent s; r_unread := r_unread s; r_fin := r_fin s; r_cut := r_cut s;
     out := out s; down := down s; logged := logged s; closed := closed s; status := status s |}.
(** Artefact: record updates: the loop that sends. *)
Definition with_up (s : state) (un : list ascii) (p : pc) (fl : list ascii) (e lg : bool) : state :=
  {| s_in := s_in s; s_unread := un; s_eof := s_eof s; s_inerr := s_inerr s; up := p; flight := fl; endq := e;
     r_got := r_got s; r_end := r_end s; r_sent := r_sent s; r_unread := r_unread s; r_fin := r_fin s; r_cut := r_cut s;
     out := out s; down := down s; logged := lg; closed := closed s; status := status s |}.
(** Artefact: record updates: the network and the server. *)
Definition with_net (s : state) (fl g : list ascii) (e : bool) (sn un : list ascii) (f c : bool) : state :=
  {| s_in := s_in s; s_unread := s_unread s; s_eof := s_eof s; s_inerr := s_inerr s; up := up s; flight := fl; endq := endq s;
     r_got := g; r_end := e; r_sent := sn; r_unread := un; r_fin := f; r_cut := c;
     out := out s; down := down s; logged := logged s; closed := closed s; status := status s |}.
(** Artefact: record updates: the loop that receives. *)
Definition with_down (s : state) (un : list ascii) (p : pc) (o : list ascii) (lg cl : bool) (st : option nat) : state :=
  {| s_in := s_in s; s_unread := s_unread s; s_eof := s_eof s; s_inerr := s_inerr s; up := up s; flight := flight s; endq := endq s;
     r_got := r_got s; r_end := r_end s; r_sent := r_sent s; r_unread := un; r_fin := r_fin s; r_cut := r_cut s;
     out := o; down := p; logged := lg; closed := cl; status := st |}.

(** Artefact: events. *)
Inductive event :=
| In (d : list ascii) | InEof | InErr                        (* standard input *)
| SSend (d : list ascii) | SFin | SCut                       (* the server, or the network *)
| Arrive (n : nat) | ArriveEnd                               (* what was written arrives *)
| URead (n : nat) | UWrite | UEof | UReadErr | UWriteErr     (* the loop that sends *)
| DRead (n : nat) | DWrite | DEof | DReadErr.                (* the loop that receives *)

(** tlsclient/main.go:132-169.  [quic]: the flag -quic.  When the loop that receives ends, main returns:
    the connection is closed before (tlsclient/main.go:167), with QUIC it is not, and what has not been sent by
    then is lost.  The kernel goes on to send what was written to a TCP connection. *)
Definition step (quic : bool) (s : state) (e : event) : option state :=
  let alive := match status s with None => true | Some _ => false end in
  match e with
  | In d => if s_eof s || s_inerr s then None else Some (with_in s (s_in s ++ d) (s_unread s ++ d) (s_eof s) (s_inerr s))
  | InEof => if s_inerr s then None else Some (with_in s (s_in s) (s_unread s) true (s_inerr s))
  | InErr => if s_eof s then None else Some (with_in s (s_in s) (s_unread s) (s_eof s) true)
  | SSend d => if r_fin s || r_cut s then None else Some (with_net s (flight s) (r_got s) (r_end s) (r_sent s ++ d) (r_unread s ++ d) (r_fin s) (r_cut s))
  | SFin => if r_cut s then None else Some (with_net s (flight s) (r_got s) (r_end s) (r_sent s) (r_unread s) true (r_cut s))
  | SCut => if r_fin s then None else Some (with_net s (flight s) (r_got s) (r_end s) (r_sent s) (r_unread s) (r_fin s) true)
  | Arrive n =>
      if (alive || negb quic) && negb (r_cut s) && (n <=? List.length (flight s))
      then Some (with_net s (skipn n (flight s)) (r_got s ++ firstn n (flight s)) (r_end s) (r_sent s) (r_unread s) (r_fin s) (r_cut s))
      else None
  | ArriveEnd =>
      match flight s with
      | [] => if (alive || negb quic) && negb (r_cut s) && endq s
              then Some (with_net s [] (r_got s) true (r_sent s) (r_unread s) (r_fin s) (r_cut s)) else None
      | _ => None
      end
  | URead n =>
      match up s with
      | Copying [] =>
          if alive && negb (n =? 0) && (n <=? List.length (s_unread s))
          then Some (with_up s (skipn n (s_unread s)) (Copying (firstn n (s_unread s))) (flight s) (endq s) (logged s))
          else None
      | _ => None
      end
  | UWrite =>
      match up s with
      | Copying (a :: buf) =>
          if alive && negb (r_cut s) then Some (with_up s (s_unread s) (Copying []) (flight s ++ a :: buf) (endq s) (logged s)) else None
      | _ => None
      end
  | UWriteErr =>
      match up s with
      | Copying (a :: buf) => if alive && r_cut s then Some (with_up s (s_unread s) Finished (flight s) true true) else None
      | _ => None
      end
  | UEof =>
      match up s, s_unread s with
      | Copying [], [] => if alive && s_eof s then Some (with_up s [] Finished (flight s) true (logged s)) else None
      | _, _ => None
      end
  | UReadErr =>
      match up s, s_unread s with
      | Copying [], [] => if alive && s_inerr s then Some (with_up s [] Finished (flight s) true true) else None
      | _, _ => None
      end
  | DRead n =>
      match down s with
      | Copying [] =>
          if alive && negb (n =? 0) && (n <=? List.length (r_unread s))
          then Some (with_down s (skipn n (r_unread s)) (Copying (firstn n (r_unread s))) (out s) (logged s) (closed s) None)
          else None
      | _ => None
      end
  | DWrite =>
      match down s with
      | Copying (a :: buf) => if alive then Some (with_down s (r_unread s) (Copying []) (out s ++ a :: buf) (logged s) (closed s) None) else None
      | _ => None
      end
  | DEof =>
      match down s, r_unread s with
      | Copying [], [] => if alive && r_fin s then Some (with_down s [] Finished (out s) (logged s) (negb quic) (Some 0)) else None
      | _, _ => None
      end
  | DReadErr =>
      match down s with
      | Copying [] => if alive && r_cut s then Some (with_down s (r_unread s) Finished (out s) true (negb quic) (Some 0)) else None
      | _ => None
      end
  end.

(** Artefact: a history. *)
Fixpoint run (quic : bool) (s : state) (tr : list event) : option state :=
  match tr with
  | [] => Some s
  | e :: tr' => match step quic s e with Some s' => run quic s' tr' | None => None end
  end.
