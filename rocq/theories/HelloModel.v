(** proxy/hello.go: extraction of server name and ALPN list from the first TLS
    record of a connection. *)
From Verif Require Import Base ConnModel.

(** Artefact: a byte as a number. *)
Definition byte (a : ascii) : N := N_of_ascii a.

(** golang.org/x/crypto/cryptobyte.String: a cursor over bytes.  Each reader
    returns [None] where the Go method returns false. *)

(** String.Skip *)
Definition cb_skip (n : N) (s : str) : option str :=
  if (N.of_nat (List.length s) <? n)%N then None else Some (skipn (N.to_nat n) s).

(** String.read n / ReadBytes *)
Definition cb_take (n : N) (s : str) : option (str * str) :=
  if (N.of_nat (List.length s) <? n)%N then None
  else Some (firstn (N.to_nat n) s, skipn (N.to_nat n) s).

(** String.ReadUint8 *)
Definition cb_u8 (s : str) : option (N * str) :=
  match s with
  | a :: s' => Some (byte a, s')
  | [] => None
  end.

(** String.ReadUint16 (big endian) *)
Definition cb_u16 (s : str) : option (N * str) :=
  match s with
  | a :: b :: s' => Some ((byte a * 256 + byte b)%N, s')
  | _ => None
  end.

(** String.ReadUint8LengthPrefixed *)
Definition cb_u8_prefixed (s : str) : option (str * str) :=
  match cb_u8 s with
  | Some (n, s') => cb_take n s'
  | None => None
  end.

(** String.ReadUint16LengthPrefixed *)
Definition cb_u16_prefixed (s : str) : option (str * str) :=
  match cb_u16 s with
  | Some (n, s') => cb_take n s'
  | None => None
  end.

(** hello.go:38-41 *)
Record clientHello := mkHello { serverName : str; alpnProtos : list str }.

(** Artefact: the idiom "if !s.ReadX() { return error }" of hello.go. *)
Definition opt {A} (x : option A) : outcome A :=
  match x with Some a => Ok a | None => Err end.

(** hello.go:163-176: the loop over the server name list.  [fuel] bounds the
    number of iterations; each one consumes at least three bytes. *)
Fixpoint parse_names (fuel : nat) (l : str) (name : str) : outcome str :=
  match l with
  | [] => Ok name
  | _ =>
      match fuel with
      | O => OutOfFuel
      | S f =>
          do (ty, l1) <- opt (cb_u8 l);
          if negb (ty =? 0)%N then Err
          else
            do (host, l2) <- opt (cb_u16_prefixed l1);
            if negb (str_eqb name []) then Err
            else parse_names f l2 host
      end
  end.

(** hello.go:198-204: the loop over the protocol name list. *)
Fixpoint parse_protos (fuel : nat) (l : str) (acc : list str) : outcome (list str) :=
  match l with
  | [] => Ok acc
  | _ =>
      match fuel with
      | O => OutOfFuel
      | S f =>
          do (p, l1) <- opt (cb_u8_prefixed l);
          parse_protos f l1 (acc ++ [p])
      end
  end.

(** hello.go:131-206: the loop over the extensions. *)
Fixpoint parse_exts (fuel : nat) (e : str) (h : clientHello) : outcome clientHello :=
  match e with
  | [] => Ok h
  | _ =>
      match fuel with
      | O => OutOfFuel
      | S f =>
          do (ty, e1) <- opt (cb_u16 e);
          do (data, e2) <- opt (cb_u16_prefixed e1);
          if (ty =? 0)%N then
            do (l, _) <- opt (cb_u16_prefixed data);
            do n <- parse_names (List.length l) l (serverName h);
            parse_exts f e2 (mkHello n (alpnProtos h))
          else if (ty =? 16)%N then
            do (l, _) <- opt (cb_u16_prefixed data);
            do ps <- parse_protos (List.length l) l (alpnProtos h);
            parse_exts f e2 (mkHello (serverName h) ps)
          else parse_exts f e2 h
      end
  end.

(** hello.go:76-207: the handshake message.  [buf[0]] on an empty slice is an
    index-out-of-range panic (line 76). *)
Definition parse_handshake (buf : str) : outcome clientHello :=
  match buf with
  | [] => Panic
  | b0 :: _ =>
      if negb (byte b0 =? 1)%N then Err
      else
        do s <- opt (cb_skip 4 buf);
        do s <- opt (cb_skip 34 s);
        do (n, s) <- opt (cb_u8 s);
        do s <- opt (cb_skip n s);
        do (n, s) <- opt (cb_u16 s);
        do s <- opt (cb_skip n s);
        do (n, s) <- opt (cb_u8 s);
        do s <- opt (cb_skip n s);
        do (exts, _) <- opt (cb_u16_prefixed s);
        parse_exts (List.length exts) exts (mkHello [] [])
  end.

(** hello.go:43-64 peekClientHello: two peeks at the connection, then the
    parser.  [got1]/[got2] say how many bytes the network delivered to each
    peek.  [5+length] is computed in uint16 and cannot wrap because
    [length <= 16384]; the wrap is written out all the same. *)
Definition peek_client_hello (c : conn) (got1 got2 : nat) : conn * outcome clientHello :=
  let '(c1, hdr, ok1) := peek c 5 got1 in
  if negb ok1 then (c1, Err)
  else
    match hdr with
    | b0 :: _ =>
        if negb (byte b0 =? 22)%N then (c1, Err)
        else
          match cb_skip 3 hdr with
          | None => (c1, Err)
          | Some s =>
              match cb_u16 s with
              | None => (c1, Err)
              | Some (len, _) =>
                  if (16384 <? len)%N then (c1, Err)
                  else
                    let want := N.to_nat ((5 + len) mod 65536) in
                    let '(c2, buf, ok2) := peek c1 want got2 in
                    if negb ok2 then (c2, Err)
                    else (c2, parse_handshake (skipn 5 buf))
              end
          end
    | [] => (c1, Panic)
    end.
