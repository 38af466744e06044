(** Re-checking the open connections after a configuration change
    (proxy/proxy.go). *)
From Verif Require Import Base IPModel RouteModel.

(** What reAuthorize reads from an open connection: its annotations
    (util.go:77-107) and its remote address.  An annotation that is not set yet
    is [None]; an unset protocol reads as the empty string. [aOld] is the mode
    of the backend that the connection was given to. *)
Record aconn := {
  aId : nat;
  aName : option str;
  aProto : str;
  aCert : option cert;
  aOld : option mode;
  aRemote : addr
}.

(** proxy.go:867-899, the body of the loop: does the connection get closed?
    A nil dereference is [Panic]: line 875 calls be.logErrorF on a nil backend
    (logging.go:74-77 reads be.LogFilter), line 879 reads oldBE.Mode,
    backend.go:222 reads the certificate. *)
Definition reauth_one (p : proxy) (c : aconn) : outcome bool :=
  match aName c with
  | None => Ok false
  | Some sn =>
      match get_backend p sn [aProto c] with
      | None => Panic
      | Some (_, b) =>
          match aOld c with
          | None => Panic
          | Some m =>
              if negb (mode_eqb (bMode b) m) then Ok true
              else if negb (check_ip (bDeny b) (bAllow b) (aRemote c)) then Ok true
              else
                match bClientAuth b with
                | None => Ok false
                | Some _ =>
                    match authorize (bClientAuth b) (aCert c) with
                    | Ok _ => Ok false
                    | Err => Ok true
                    | Panic => Panic
                    | OutOfFuel => OutOfFuel
                    end
                end
          end
      end
  end.

(** proxy.go:865-901 reAuthorize over the snapshot of open connections: the
    connections that were closed, and whether the loop ended normally.  It runs
    in a goroutine of its own without recover (proxy.go:861), so [Panic] ends
    the process. *)
Fixpoint reauthorize (p : proxy) (cs : list aconn) : list aconn * outcome unit :=
  match cs with
  | [] => ([], Ok tt)
  | c :: cs' =>
      match reauth_one p c with
      | Ok closed =>
          let '(l, r) := reauthorize p cs' in
          (if closed then c :: l else l, r)
      | Err => ([], Err)
      | Panic => ([], Panic)
      | OutOfFuel => ([], OutOfFuel)
      end
  end.
