(** C01: peeking never changes what a reader sees. *)
From Verif Require Import Base ConnModel ConnSpec ConnProofs.

(** Whatever sequence of Peek and Read calls is made on a fresh connection, and
    however the network fragments the bytes, the bytes handed out by the Read
    calls are a prefix of what the peer sent, in order, each exactly once, and
    the byte counter equals their number. *)
Theorem C01_reads_are_the_stream : forall stream ops c' outs,
  conn_run (fresh_conn stream) ops = (c', outs) ->
  exists rest, stream = delivered outs ++ rest /\
               received c' = List.length (delivered outs).
Proof. exact C01_reads_lemma. Qed.
Print Assumptions C01_reads_are_the_stream.

(** A Peek at any moment shows the bytes that follow those already read, and
    succeeds exactly when it shows as many as were asked for. *)
Theorem C01_peek_shows_next_bytes : forall stream before want got c1 outs c2 b ok,
  conn_run (fresh_conn stream) before = (c1, outs) ->
  conn_step c1 (OPeek want got) = (c2, OutPeek b ok) ->
  (exists rest, stream = delivered outs ++ b ++ rest) /\
  (ok = true <-> List.length b = want).
Proof. exact C01_peek_lemma. Qed.
Print Assumptions C01_peek_shows_next_bytes.

(** Peeks may be inserted or removed anywhere: draining the connection
    afterwards yields all that was not read before. *)
Theorem C01_no_byte_lost : forall stream ops c' outs n,
  conn_run (fresh_conn stream) ops = (c', outs) ->
  List.length stream <= n ->
  exists c'' a b,
    conn_run c' [ORead false n n; ORead false n n] = (c'', [OutRead a; OutRead b]) /\
    delivered outs ++ a ++ b = stream.
Proof. exact C01_no_byte_lost_lemma. Qed.
Print Assumptions C01_no_byte_lost.

Example C01_example :
  let '(c, outs) := conn_run (fresh_conn !"hello world")
     [OPeek 5 5; ORead false 3 3; OPeek 4 9; ORead false 100 100; ORead true 5 5;
      ORead false 100 3] in
  delivered outs = !"hello worl" /\ received c = 10 /\
  outs = [OutPeek !"hello" true; OutRead !"hel"; OutPeek !"lo w" true; OutRead !"lo w";
          OutRead []; OutRead !"orl"].
Proof. vm_compute. repeat split. Qed.

(** A peek that the peer cuts short fails and loses nothing. *)
Example C01_short_peek :
  let '(c, outs) := conn_run (fresh_conn !"abc") [OPeek 5 5; ORead false 10 10] in
  outs = [OutPeek !"abc" false; OutRead !"abc"].
Proof. vm_compute. reflexivity. Qed.
