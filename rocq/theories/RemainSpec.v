(** * Reading a handle to its end *)
From stdpp Require Import gmap.
From Verif Require Export CopySpec.

(** The bytes delivered by the Reads among the results [os]. *)
Definition read_count (o : out res) : Z := match o with ORet (RRead n _ _) => n | _ => 0 end.
Definition delivered (os : list (out res)) : Z := foldr Z.add 0 (map read_count os).

(** On the handle [j] the program [cs] asks how many bytes are left, is told [z],
    and then makes nothing but Reads, of any sizes, the last of which reports an
    error [e].  It does anything with other handles meanwhile. *)
Definition read_to_end (j : nat) (cs : list cmd) (os : list (out res)) (z : Z) (e : error) : Prop :=
  exists ps xs n q,
    ops_on j cs = BytesRemaining :: map Read ps /\
    seen j cs os = ORet (RInt z) :: map ORet xs ++ [ORet (RRead n q (Some e))].

(** The command is not a WriteTo. *)
Definition no_WriteTo (c : cmd) : Prop := match c with Call _ (WriteTo _) => False | _ => True end.
