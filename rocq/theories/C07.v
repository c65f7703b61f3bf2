(** * C07 — Close returns the right error to the right caller *)
From stdpp Require Import gmap.
From Verif Require Import Spec Witness.
From Verif Require ProofsOwn.

(** The setting is that of C06.  Then a handle [j] of the family is closed. *)
Theorem C07_close_errors :
  forall (W : Type) (E : env W) (fuel : nat) (r : rid) (w : W) cs0 os0 h0 new h1 i cs h2 os,
  go_env E ->
  Forall go_cmd (cs0 ++ new :: cs) ->
  Forall (fun c => ~ wraps r c) (cs0 ++ cs) ->
  wraps r new ->
  history E fuel (initial w) cs0 = (h0, os0) ->
  exec E fuel h0 new = (h1, ORet (RBody i None)) ->
  history E fuel h1 cs = (h2, os) ->
  feasible h2 ->
  forall j h3 o, exec E fuel h2 (Call j Close) = (h3, o) ->
  let t := tracks {[ i := true ]} cs os in
  (* another handle is still open *)
  (t !! j = Some true -> (exists k, k <> j /\ t !! k = Some true) -> o = ORet (RErr None)) /\
  (* it was the last one: the error is the one the Reader's Close returns *)
  (t !! j = Some true -> (forall k, k <> j -> t !! k <> Some true) ->
     if is_closer (ev_caps E r)
     then exists err, ev_close E (h_w h2) r = (h_w h3, err) /\ o = ORet (RErr err)
     else o = ORet (RErr None)) /\
  (* already closed *)
  (t !! j = Some false -> o = ORet (RErr (Some ErrClosed))).
Proof. exact @ProofsOwn.close_errors. Qed.
Print Assumptions C07_close_errors.

(** A Reader whose Close fails. *)
Example C07_example :
  let E := demo [{| so_data := bs "ab"; so_caps := seekable; so_chunk := 4; so_last := EOF; so_close := Some (External 7) |}] in
  let h1 := fst (exec E 9 (initial [0%nat]) (NewReader 0)) in
  go_env E /\ exec E 9 (initial [0%nat]) (NewReader 0) = (h1, ORet (RBody 1 None)) /\
  snd (history E 9 h1 [Call 1 Copy; Call 1 Close; Call 1 Close; Call 2 Close; Call 2 Close]) =
    [ORet (RBody 2 None); ORet (RErr None); ORet (RErr (Some ErrClosed)); ORet (RErr (Some (External 7))); ORet (RErr (Some ErrClosed))].
Proof. cbv zeta. split; [apply demo_go|]. split; vm_compute; reflexivity. Qed.
