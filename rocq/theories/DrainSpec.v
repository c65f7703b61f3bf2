(** * Vocabulary for answers without a body: what becomes of the Body *)
From stdpp Require Import gmap.
From Verif Require Export SafeSpec.

(** Calls of Read on the Body [i] with buffers that are not empty, from the state [s] to
    the state [s'], until one reports the error [e]; [n] bytes in all. *)
Inductive drained {V} (U : uenv V) (fuel : nat) (i : nat) : state V -> Z -> error -> state V -> Prop :=
| drained_end s p s' n q e : p <> [] ->
    texec U fuel (TDo (RB (Call i (Read p)))) s = (s', ORet (YBody (RRead n q (Some e)))) -> drained U fuel i s n e s'
| drained_more s p s1 n q m e s' : p <> [] ->
    texec U fuel (TDo (RB (Call i (Read p)))) s = (s1, ORet (YBody (RRead n q None))) -> drained U fuel i s1 m e s' ->
    drained U fuel i s (n + m) e s'.
(** The Body [i] reads from a Reader. *)
Definition of_reader {V} (s : state V) (i : nat) : Prop :=
  match h_b (s_h s) !! i with Some (BSeeker _ | BReaderAt _ | BBuffered _) => True | _ => False end.
(** io.Copy reports any error but EOF. *)
Definition but_eof (e : error) : option error := match e with EOF => None | _ => Some e end.
