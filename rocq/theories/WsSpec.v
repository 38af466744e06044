(** What a WebSocket tunnel should do, in terms of what its two ends send. *)
From Verif Require Import Base WsModel.
Local Open Scope nat_scope.

(** The frames that the client sends, until it goes away. *)
Fixpoint client_frames (tr : list wsop) : list frame :=
  match tr with
  | nil => nil
  | ClientSends f :: tr => f :: client_frames tr
  | ClientGone :: _ => nil
  | _ :: tr => client_frames tr
  end.

(** The bytes that the server sends, until it goes away. *)
Fixpoint server_bytes (tr : list wsop) : str :=
  match tr with
  | nil => nil
  | ServerSends b :: tr => b ++ server_bytes tr
  | ServerGone :: _ => nil
  | _ :: tr => server_bytes tr
  end.

(** The contents of the binary messages of a sequence of frames: a message is a
    first frame that names the kind, followed by continuation frames up to the one
    marked as the last; control frames may come anywhere; a close frame ends the
    sequence, and so does a frame out of place.  [m]: inside a message, binary or
    not. *)
Fixpoint binary_contents (m : option bool) (fs : list frame) : str :=
  match fs with
  | nil => nil
  | Ping :: fs | Pong :: fs => binary_contents m fs
  | CloseF :: _ => nil
  | Data o last p :: fs =>
      let goes_on b := (if b : bool then p else nil) ++ binary_contents (if last then None else Some b) fs in
      match m, o with
      | None, OBin => goes_on true
      | None, OText => goes_on false
      | Some b, OCont => goes_on b
      | _, _ => nil
      end
  end.

(** The time that passes in a history. *)
Fixpoint elapsed (tr : list wsop) : nat :=
  match tr with nil => 0 | Elapse d :: tr => d + elapsed tr | _ :: tr => elapsed tr end.

(** The number of pongs in a sequence of frames. *)
Fixpoint pongs (fs : list frame) : nat :=
  match fs with nil => 0 | Pong :: fs => S (pongs fs) | _ :: fs => pongs fs end.

(** The number of pongs that the proxy has read: sent, and not waiting any more. *)
Definition pongs_read (tr : list wsop) : nat := pongs (client_frames tr) - pongs (q (ws_run tr)).

(** Every ping that the proxy sends is answered at once. *)
Fixpoint answers_at_once (s : ws) (tr : list wsop) : Prop :=
  match tr with
  | nil => True
  | o :: tr' =>
      (pings (ws_step s o) <> pings s -> exists tr'', tr' = ClientSends Pong :: tr'') /\
      answers_at_once (ws_step s o) tr'
  end.

(** Steps of the goroutine that reads from the client, and of the one that reads
    from the server (with a client that can be written to). *)
Definition reads (o : wsop) : Prop := match o with InRead _ | InWrite _ => True | _ => False end.

Definition sends (o : wsop) : Prop := match o with OutRead _ true => True | _ => False end.
