(** The PROXY protocol as its public specification describes it (versions 1 and
    2), from the reader's side: what the bytes at the beginning of a stream mean.
    Written independently of the code that writes headers. *)
From Coq Require Import DecimalString.
From Verif Require Import Base IPModel ProxyHdrModel.

(** What a header says. *)
Record pp_info := {
  pp_stream : bool;             (* stream (TCP) or datagram (UDP) *)
  pp_src : ip; pp_dst : ip;
  pp_sport : N; pp_dport : N;
  pp_tlvs : list (N * str)      (* version 2 only *)
}.

Inductive pp_result :=
| PPNone                               (* the stream has no header *)
| PPBad                                (* it begins like one and is not *)
| PPUnknown (rest : str)               (* a header without addresses *)
| PPProxy (i : pp_info) (rest : str).

(** Numbers in decimal, at most [max]. *)
Definition undec (max : N) (s : str) : option N :=
  match s with
  | [] => None
  | _ => match NilEmpty.uint_of_string (string_of_list_ascii s) with
         | Some u => if (N.of_uint u <=? max)%N then Some (N.of_uint u) else None
         | None => None
         end
  end.

Fixpoint all_some {A} (l : list (option A)) : option (list A) :=
  match l with
  | [] => Some []
  | Some x :: l' => match all_some l' with Some r => Some (x :: r) | None => None end
  | None :: _ => None
  end.

(** a.b.c.d *)
Definition undotted (s : str) : option ip :=
  match all_some (map (undec 255) (split_on dot s)) with
  | Some l => if List.length l =? 4 then Some l else None
  | None => None
  end.

(** The textual form of addresses: those with a colon are IPv6, read by [p6]. *)
Definition parse_ip (p6 : str -> option ip) (s : str) : option ip :=
  if has_char ":"%char s then p6 s else undotted s.

(** Version 1: one line of text, ended by CR LF. *)
Definition strip_cr (s : str) : option str :=
  match rev s with
  | c :: r => if ascii_eqb c cr then Some (rev r) else None
  | [] => None
  end.

Definition pp_parse_v1 (p6 : str -> option ip) (s : str) : pp_result :=
  let '(line, rest, found) := cut lf s in
  if negb found then PPBad else
  match strip_cr line with
  | None => PPBad
  | Some line =>
      match split_on sp line with
      | w0 :: w1 :: words =>
          if negb (str_eqb w0 (lit "PROXY")) then PPBad
          else if str_eqb w1 (lit "UNKNOWN") then PPUnknown rest
          else if str_eqb w1 (lit "TCP4") || str_eqb w1 (lit "TCP6") then
            match words with
            | [a; b; p; q] =>
                match parse_ip p6 a, parse_ip p6 b, undec 65535 p, undec 65535 q with
                | Some a, Some b, Some p, Some q =>
                    PPProxy {| pp_stream := true; pp_src := a; pp_dst := b; pp_sport := p; pp_dport := q; pp_tlvs := [] |} rest
                | _, _, _, _ => PPBad
                end
            | _ => PPBad
            end
          else PPBad
      | _ => PPBad
      end
  end.

(** Version 2: binary. *)
Definition u8 (c : ascii) : N := N_of_ascii c.
Definition u16 (a b : ascii) : N := (256 * u8 a + u8 b)%N.

(** Type-length-value triples until the end. *)
Fixpoint pp_tlv_list (fuel : nat) (s : str) : option (list (N * str)) :=
  match fuel with
  | O => None
  | S fuel' =>
      match s with
      | [] => Some []
      | t :: a :: b :: s' =>
          let n := N.to_nat (u16 a b) in
          if List.length s' <? n then None
          else match pp_tlv_list fuel' (skipn n s') with
               | Some l => Some ((u8 t, firstn n s') :: l)
               | None => None
               end
      | _ => None
      end
  end.

(** The payload of a version 2 header with addresses of [k] bytes. *)
Definition pp_payload (stream : bool) (k : nat) (pay rest : str) : pp_result :=
  let a := firstn k pay in
  let b := firstn k (skipn k pay) in
  match skipn (k + k) pay with
  | p1 :: p2 :: q1 :: q2 :: tl =>
      match pp_tlv_list (S (List.length tl)) tl with
      | Some l => PPProxy {| pp_stream := stream; pp_src := map u8 a; pp_dst := map u8 b;
                             pp_sport := u16 p1 p2; pp_dport := u16 q1 q2; pp_tlvs := l |} rest
      | None => PPBad
      end
  | _ => PPBad
  end.

Definition pp_parse_v2 (s : str) : pp_result :=
  match s with
  | vc :: fam :: l1 :: l2 :: s' =>
      let n := N.to_nat (u16 l1 l2) in
      if List.length s' <? n then PPBad else
      let pay := firstn n s' in
      let rest := skipn n s' in
      if (u8 vc =? 32)%N then PPUnknown rest                 (* version 2, LOCAL *)
      else if (u8 vc =? 33)%N then                           (* version 2, PROXY *)
        (if (u8 fam =? 17)%N then pp_payload true 4 pay rest
         else if (u8 fam =? 18)%N then pp_payload false 4 pay rest
         else if (u8 fam =? 33)%N then pp_payload true 16 pay rest
         else if (u8 fam =? 34)%N then pp_payload false 16 pay rest
         else if (u8 fam =? 0)%N then PPUnknown rest
         else PPBad)
      else PPBad
  | _ => PPBad
  end.

Definition pp_signature : str :=
  map ascii_of_N [13; 10; 13; 10; 0; 13; 10; 81; 85; 73; 84; 10]%N.

(** Either version. *)
Definition pp_parse (p6 : str -> option ip) (s : str) : pp_result :=
  if has_prefix s (lit "PROXY") then pp_parse_v1 p6 s
  else if has_prefix s pp_signature then pp_parse_v2 (skipn 12 s)
  else PPNone.

(** A conforming reader, in the terms of the model: what the library hands to
    the proxy. *)
Definition pp_reader (p6 : str -> option ip) (s : str) : header_read :=
  match pp_parse p6 s with
  | PPNone => NoHeader
  | PPBad => BadHeader
  | PPUnknown rest => LocalHeader rest
  | PPProxy i rest => ProxyHeader ((if pp_stream i then TCPAddr else UDPAddr) (pp_src i) (pp_sport i)) rest
  end.

(** ** Addresses *)

(** An address of 4 or 16 bytes. *)
Definition ip_ok (a : ip) : Prop :=
  (List.length a = 4%nat \/ List.length a = 16%nat) /\ (forall b, In b a -> (b < 256)%N).

(** The same address, whether an IPv4 address is held in 4 or in 16 bytes. *)
Definition canon (a : ip) : ip := match to4 a with Some b => b | None => a end.
Definition same_ip (a b : ip) : Prop := canon a = canon b.

(** [p6] reads what [s6] writes: net.IP.String and its inverse on addresses that
    are not IPv4. *)
Definition text6 (s6 : ip -> str) (p6 : str -> option ip) : Prop :=
  forall a, ip_ok a -> to4 a = None ->
    p6 (s6 a) = Some a /\ In ":"%char (s6 a) /\
    ~ In sp (s6 a) /\ ~ In lf (s6 a).

(** The addresses of a client's connection: both TCP or both UDP, real addresses
    and ports. *)
Definition addr_ok (a : naddr) : Prop :=
  match a with TCPAddr i p | UDPAddr i p => ip_ok i /\ (p < 65536)%N | OtherAddr => False end.
Definition is_tcp (a : naddr) : bool := match a with TCPAddr _ _ => true | _ => false end.
Definition endpoints_ok (c : client) : Prop :=
  addr_ok (cl_remote c) /\ addr_ok (cl_local c) /\ is_tcp (cl_remote c) = is_tcp (cl_local c).
