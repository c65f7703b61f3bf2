(** * Vocabulary for the encoders *)
From stdpp Require Import gmap.
From Verif Require Export RespSpec.

(** Every LF becomes CR LF. *)
Definition crlf_of (d : bytes) : bytes :=
  concat (map (fun c : ascii => if decide (c = "010"%char) then ["013"%char; "010"%char] else [c]) d).
(** Deleting each CR that comes just before an LF. *)
Fixpoint strip_cr (d : bytes) : bytes :=
  match d with
  | [] => []
  | c :: d' =>
      if Ascii.eqb c "013" && match d' with c2 :: _ => Ascii.eqb c2 "010" | [] => false end
      then strip_cr d' else c :: strip_cr d'
  end.
(** The Body [i], made by the step from [s] to [s'], is new and serves the bytes
    [d]: whatever Body operations follow, it and its copies answer like cursors
    over [d] (Spec.v). *)
Definition serves {V} (U : uenv V) (fuel : nat) (s s' : state V) (i : nat) (d : bytes) : Prop :=
  h_b (s_h s) !! i = None /\
  forall cs h2 os, Forall go_cmd cs -> history (wenv U) fuel (s_h s') cs = (h2, os) ->
  fam_trace (mem_family d) {[ i := At 0 false ]} cs os.
