(** * C10 — a failed Read stays failed *)
From stdpp Require Import gmap.
From Verif Require Import Spec Witness.
From Verif Require Sticky.

(** [h]: any state a program can reach, [i]: any handle of any kind.  Once Read
    has returned an error [e], and whatever the program does in between ([cs]:
    calls on this and other handles, copies, constructors) short of closing this
    handle or successfully seeking on it, Read returns no bytes and [e] again.
    The heap is the same before and after: no Reader is called. *)
Theorem C10_failed_stays_failed :
  forall (W : Type) (E : env W) (fuel : nat) (h : heap W) i p h1 n p' e cs h2 os q,
  go_env E -> reaches E fuel h ->
  zlen p <= max_slice ->
  exec E fuel h (Call i (Read p)) = (h1, ORet (RRead n p' (Some e))) ->
  Forall go_cmd cs ->
  history E fuel h1 cs = (h2, os) ->
  feasible h2 ->
  Forall (undisturbing i) (zip cs os) ->
  zlen q <= max_slice ->
  exec E fuel h2 (Call i (Read q)) = (h2, ORet (RRead 0 q (Some e))).
Proof. exact @Sticky.failed_stays. Qed.
Print Assumptions C10_failed_stays_failed.

(** Two handles on a stream that ends with an error other than EOF. *)
Example C10_example :
  let E := demo [{| so_data := bs "hello"; so_caps := plain; so_chunk := 4; so_last := External 7; so_close := None |}] in
  let cs0 := [NewReader 0; Call 1 Copy] in
  let cs := [Call 2 (Read (buf 3)); Call 1 Copy; Call 3 Close; Call 1 BytesRemaining; Call 2 (Read (buf 9))] in
  let h := fst (history E 9 (initial [0%nat]) cs0) in
  let x := exec E 9 h (Call 1 (Read (buf 8))) in
  let y := history E 9 (fst x) cs in
  go_env E /\ reaches E 9 h /\
  snd x = ORet (RRead 5 (bs "hello" ++ buf 3) (Some (External 7))) /\
  Forall go_cmd cs /\ feasible (fst y) /\ Forall (undisturbing 1) (zip cs (snd y)) /\
  snd y = [ORet (RRead 3 (bs "hel") None); ORet (RBody 3 None); ORet (RErr None); ORet (RInt 0);
           ORet (RRead 2 (bs "lo" ++ buf 7) (Some (External 7)))] /\
  exec E 9 (fst y) (Call 1 (Read (buf 2))) = (fst y, ORet (RRead 0 (buf 2) (Some (External 7)))).
Proof.
  cbv zeta. split; [apply demo_go|]. split.
  { eexists _, _, _. split; [|split; [apply surjective_pairing|split; vm_compute; done]]. repeat constructor; vm_compute; done. }
  split; [vm_compute; reflexivity|]. split; [repeat constructor; vm_compute; done|].
  split; [split; vm_compute; done|]. split; [vm_compute; repeat constructor; lia|]. split; vm_compute; reflexivity.
Qed.
