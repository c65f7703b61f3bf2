(** * C17 — Unwrap exposes the Reader exactly while the handle is open *)
From stdpp Require Import gmap.
From Verif Require Import Spec Witness.
From Verif Require ProofsOwn.

(** The setting is that of C06. *)
Theorem C17_unwrap_while_open :
  forall (W : Type) (E : env W) (fuel : nat) (r : rid) (w : W) cs0 os0 h0 new h1 i cs h2 os,
  go_env E ->
  Forall go_cmd (cs0 ++ new :: cs) ->
  Forall (fun c => ~ wraps r c) (cs0 ++ cs) ->
  wraps r new ->
  history E fuel (initial w) cs0 = (h0, os0) ->
  exec E fuel h0 new = (h1, ORet (RBody i None)) ->
  history E fuel h1 cs = (h2, os) ->
  feasible h2 ->
  forall j, let t := tracks {[ i := true ]} cs os in
  (t !! j = Some true -> exec E fuel h2 (Call j Unwrap) = (h2, ORet (RReader (Some r)))) /\
  (t !! j = Some false -> exec E fuel h2 (Call j Unwrap) = (h2, ORet (RReader None))).
Proof. exact @ProofsOwn.unwrap_while_open. Qed.
Print Assumptions C17_unwrap_while_open.

(** In-memory Bodies have no Reader. *)
Theorem C17_unwrap_in_memory :
  forall (W : Type) (E : env W) (fuel : nat) (h : heap W) (i : nat) (b : bobj),
  h_b h !! i = Some b -> match b with BClosed | BEmpty _ | BBytes _ => True | _ => False end ->
  exec E fuel h (Call i Unwrap) = (h, ORet (RReader None)).
Proof. exact @ProofsOwn.unwrap_in_memory. Qed.
Print Assumptions C17_unwrap_in_memory.

Example C17_example :
  let E := demo [hello plain 4] in
  let h1 := fst (exec E 9 (initial [0%nat]) (NewReader 0)) in
  go_env E /\ exec E 9 (initial [0%nat]) (NewReader 0) = (h1, ORet (RBody 1 None)) /\
  snd (history E 9 h1 [Call 1 Copy; Call 1 Close; Call 1 Unwrap; Call 2 Unwrap; NewBytes (bs "x"); Call 3 Unwrap]) =
    [ORet (RBody 2 None); ORet (RErr None); ORet (RReader None); ORet (RReader (Some 0%nat)); ORet (RBody 3 None); ORet (RReader None)].
Proof. cbv zeta. split; [apply demo_go|]. split; vm_compute; reflexivity. Qed.
