(** * C19 — Empty and a Body of no bytes *)
From stdpp Require Import gmap.
From Verif Require Import SeekSpec Witness.
From Verif Require SeekProofs.

(** All programs that call neither WriteTo nor ReadAt with a negative offset see
    Empty, and FromBytes and FromString of nothing, behave as a Body holding no
    bytes does according to C01, as do its copies. *)
Theorem C19_partial :
  forall (W : Type) (E : env W) (fuel : nat) (h : heap W) (c : cmd),
  c = NewEmpty \/ c = NewBytes [] \/ c = NewString "" ->
  exists h1 i, exec E fuel h c = (h1, ORet (RBody i None)) /\ h_b h !! i = None /\
  forall cs h2 os, Forall go_cmd cs -> Forall untelling cs -> history E fuel h1 cs = (h2, os) ->
  fam_trace none_family {[ i := At 0 false ]} cs os.
Proof. exact @SeekProofs.empty_is_none. Qed.
Print Assumptions C19_partial.

(** These two calls are told apart. *)
Theorem C19_refuted :
  exists (W : Type) (E : env W) (fuel : nat) (w : W) cs h os,
  Forall go_cmd cs /\ history E fuel (initial w) (NewEmpty :: Call 1 (Seek 0 0) :: cs) = (h, ORet (RBody 1 None) :: ORet (RSeek 0 None) :: os) /\ length os = length cs /\ ~ fam_trace none_family {[ 1%nat := At 0 false ]} cs os.
Proof. exact @SeekProofs.empty_told_apart. Qed.
Print Assumptions C19_refuted.

Theorem C19_refuted_WriteTo :
  exists (W : Type) (E : env W) (fuel : nat) (w : W) cs h os,
  Forall go_cmd cs /\ history E fuel (initial w) (NewEmpty :: Call 1 (Read (buf 1)) :: cs) = (h, ORet (RBody 1 None) :: ORet (RRead 0 (buf 1) (Some EOF)) :: os) /\ length os = length cs /\ ~ fam_trace none_family {[ 1%nat := At 0 true ]} cs os.
Proof. exact @SeekProofs.empty_told_apart_writing. Qed.
Print Assumptions C19_refuted_WriteTo.

Example C19_example :
  let E := demo [] in
  let cs := [Call 1 (Read []); Call 1 Copy; Call 1 (Read (buf 2)); Call 1 (Read []); Call 2 (Read []); Call 1 (Seek 3 0); Call 1 (ReadAt (buf 1) 7); Call 1 Close] in
  Forall go_cmd cs /\ Forall untelling cs /\
  (history E 0 (exec E 0 (initial []) (NewBytes [])).1 cs).2 =
    [ORet (RRead 0 [] None); ORet (RBody 2 None); ORet (RRead 0 (buf 2) (Some EOF)); ORet (RRead 0 [] (Some EOF)); ORet (RRead 0 [] None);
     ORet (RSeek 0 None); ORet (RRead 0 (buf 1) (Some EOF)); ORet (RErr None)].
Proof. split; [repeat constructor; vm_compute; done|]. split; [repeat constructor; vm_compute; done|]. vm_compute. reflexivity. Qed.
