(** * C48 — reference counts and the number of copies *)
From stdpp Require Import gmap.
From Verif Require Import Spec Witness.
From Verif Require Limits.

(** Fewer than 2^31 Bodies ([feasible]): closing one handle neither closes the
    Reader nor takes it away while another handle of the family is open.  The
    setting is that of C06. *)
Theorem C48_reader_stays_open_partial :
  forall (W : Type) (E : env W) (fuel : nat) (r : rid) (w : W) cs0 os0 h0 new h1 i cs h2 os j k h3 o,
  go_env E ->
  Forall go_cmd (cs0 ++ new :: cs) ->
  Forall (fun c => ~ wraps r c) (cs0 ++ cs) ->
  wraps r new ->
  history E fuel (initial w) cs0 = (h0, os0) ->
  exec E fuel h0 new = (h1, ORet (RBody i None)) ->
  history E fuel h1 cs = (h2, os) ->
  exec E fuel h2 (Call j Close) = (h3, o) -> feasible h3 ->
  k <> j -> tracks {[ i := true ]} cs os !! k = Some true ->
  Forall not_close (calls_on r (h_log h3)) /\
  exec E fuel h3 (Call k Unwrap) = (h3, ORet (RReader (Some r))).
Proof. exact @Limits.reader_stays_open. Qed.
Print Assumptions C48_reader_stays_open_partial.

(** False without the limit: copy a ReaderAt Body 2^31 times and close one copy.
    The int32 counter has wrapped around, so the Reader is closed, and the handle
    the program started with, which it never closed and never read, is at EOF. *)
Theorem C48_refuted :
  exists (W : Type) (E : env W) (w : W) (cs : list cmd) (h1 h2 : heap W) (os : list (out res)) (x y : heap W * out res),
  go_env E /\ Forall go_cmd cs /\ Forall (fun c => c = Call 1 Copy) cs /\
  exec E 0 (initial w) (NewReader 0) = (h1, ORet (RBody 1 None)) /\
  history E 0 h1 cs = (h2, os) /\
  Forall not_close (h_log h2) /\
  exec E 0 h2 (Call 2 Close) = x /\ snd x = ORet (RErr None) /\
  h_log (fst x) = h_log h2 ++ [EvClose 0 None] /\
  exec E 0 (fst x) (Call 1 (Read (buf 4))) = y /\ snd y = ORet (RRead 0 (buf 4) (Some EOF)).
Proof. exact Limits.many_closed. Qed.
Print Assumptions C48_refuted.

Example C48_example :
  let E := demo [hello random_access 4] in
  let h1 := fst (exec E 9 (initial [0%nat]) (NewReader 0)) in
  let x := history E 9 h1 [Call 1 Copy; Call 2 Copy] in
  let y := exec E 9 (fst x) (Call 1 Close) in
  go_env E /\ exec E 9 (initial [0%nat]) (NewReader 0) = (h1, ORet (RBody 1 None)) /\
  tracks {[ 1%nat := true ]} [Call 1 Copy; Call 2 Copy] (snd x) !! 3%nat = Some true /\
  snd y = ORet (RErr None) /\ feasible (fst y) /\
  snd (exec E 9 (fst y) (Call 3 (Read (buf 4)))) = ORet (RRead 4 (bs "hell") None).
Proof.
  cbv zeta. split; [apply demo_go|]. split; [vm_compute; reflexivity|]. split; [vm_compute; reflexivity|].
  split; [vm_compute; reflexivity|]. split; [split; vm_compute; done|]. vm_compute; reflexivity.
Qed.
