(** IP addresses, CIDR ranges (Go's net package) and Backend.checkIP. *)
From Verif Require Import Base.

(** net.IP: 4 or 16 bytes (other lengths are possible and match nothing). *)
Definition ip := list N.

(** net.v4InV6Prefix *)
Definition v4_prefix : list N := [0;0;0;0;0;0;0;0;0;0;255;255]%N.

(** Artefact: equality of byte slices. *)
Fixpoint nlist_eqb (a b : list N) : bool :=
  match a, b with
  | [], [] => true
  | x :: a', y :: b' => (x =? y)%N && nlist_eqb a' b'
  | _, _ => false
  end.

(** net.IP.To4 *)
Definition to4 (a : ip) : option ip :=
  if List.length a =? 4 then Some a
  else if (List.length a =? 16) && nlist_eqb (firstn 12 a) v4_prefix
       then Some (skipn 12 a)
       else None.

(** net.IPNet *)
Record ipnet := { netIP : ip; netMask : list N }.

(** net.networkNumberAndMask *)
Definition network_and_mask (n : ipnet) : option (ip * list N) :=
  let a := match to4 (netIP n) with Some x => Some x
           | None => if List.length (netIP n) =? 16 then Some (netIP n) else None end in
  match a with
  | None => None
  | Some a =>
      let lm := List.length (netMask n) in
      if lm =? 4 then (if List.length a =? 4 then Some (a, netMask n) else None)
      else if lm =? 16 then
        (if List.length a =? 4 then Some (a, skipn 12 (netMask n)) else Some (a, netMask n))
      else None
  end.

(** The loop of IPNet.Contains.  It ranges over [len(ip)] and indexes the three
    slices, which have the same length at that point. *)
Fixpoint masked_eq (nn m a : list N) : bool :=
  match nn, m, a with
  | x :: nn', k :: m', y :: a' => (N.land x k =? N.land y k)%N && masked_eq nn' m' a'
  | _, _, _ => true
  end.

(** net.IPNet.Contains *)
Definition contains (n : ipnet) (a : ip) : bool :=
  let a := match to4 a with Some x => x | None => a end in
  match network_and_mask n with
  | None => (* nn and m are nil: only the empty address has the same length *)
      List.length a =? 0
  | Some (nn, m) =>
      if List.length a =? List.length nn then masked_eq nn m a else false
  end.

(** One byte of a mask: ^byte(0xff >> ones), 0xff from 8 on. *)
Definition mask_byte (ones : nat) : N :=
  (if (8 <=? ones)%nat then 255 else 255 - N.shiftr 255 (N.of_nat ones))%N.

(** net.CIDRMask(ones, bits) for bits = 8*l. *)
Fixpoint cidr_mask (ones : nat) (l : nat) : list N :=
  match l with
  | O => []
  | S l' =>
      mask_byte ones :: cidr_mask (ones - 8) l'
  end.

(** net.IP.Mask, for a mask of the same length. *)
Fixpoint mask_ip (m a : list N) : list N :=
  match m, a with
  | k :: m', x :: a' => N.land k x :: mask_ip m' a'
  | _, _ => []
  end.

(** The IPNet that net.ParseCIDR returns for an address literal of [l] bytes
    (4 or 16) and prefix length [ones <= 8*l].  The textual parsing itself is
    not modelled.  (netip.ParseAddr keeps the family of the literal.) *)
Definition parse_cidr (a : ip) (ones : nat) : ipnet :=
  let m := cidr_mask ones (List.length a) in
  {| netIP := mask_ip m a; netMask := m |}.

(** Remote address of a connection: TCP and UDP addresses carry an IP, any
    other net.Addr does not. *)
Inductive addr := AddrIP (a : ip) | AddrOther.

(** backend.go:253-259, 260-265: a loop over a list of networks. *)
Fixpoint any_contains (l : list ipnet) (a : ip) : bool :=
  match l with
  | [] => false
  | n :: l' => if contains n a then true else any_contains l' a
  end.

(** backend.go:243-269 checkIP; true is a nil error. *)
Definition check_ip (deny allow : option (list ipnet)) (r : addr) : bool :=
  match r with
  | AddrOther => false
  | AddrIP a =>
      if match deny with Some l => any_contains l a | None => false end then false
      else match allow with
           | Some l => any_contains l a
           | None => true
           end
  end.
