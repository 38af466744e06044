(** What a reader of a connection gets. *)
From Verif Require Import Base ConnModel.

(** The bytes delivered by the reads, in order. *)
Fixpoint delivered (outs : list connOut) : str :=
  match outs with
  | [] => []
  | OutRead b :: l => b ++ delivered l
  | OutPeek _ _ :: l => delivered l
  end.
