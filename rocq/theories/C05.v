(** * C05 — Close is final *)
From stdpp Require Import gmap.
From Verif Require Import Spec Witness.
From Verif Require ProofsOwn.

(** In every reachable heap, Close of any handle returns; from then on, after
    any further history, every method of this handle gives the answer of a
    closed Body and changes nothing at all (not even the log of external
    calls), and so does the Body that its Copy returns. *)
Theorem C05_close_is_final :
  forall (W : Type) (E : env W) (fuel : nat) (h : heap W) (i : nat) (b : bobj),
  go_env E -> reaches E fuel h -> h_b h !! i = Some b ->
  exists h1 e, exec E fuel h (Call i Close) = (h1, ORet (RErr e)) /\
  forall cs h2 os, history E fuel h1 cs = (h2, os) ->
  forall f, exec E fuel h2 (Call i f) = (h2, ORet (if has_method b f then closed_answer f else RNoMethod)) /\
            exec E fuel h2 (Call closedSingleton f) = (h2, ORet (closed_answer f)).
Proof. exact @ProofsOwn.close_is_final. Qed.
Print Assumptions C05_close_is_final.

(** AlreadyClosed() returns such a Body. *)
Theorem C05_already_closed :
  forall (W : Type) (E : env W) (fuel : nat) (h : heap W),
  go_env E -> reaches E fuel h ->
  exec E fuel h NewClosed = (h, ORet (RBody closedSingleton None)) /\
  forall cs h2 os f, history E fuel h cs = (h2, os) ->
    exec E fuel h2 (Call closedSingleton f) = (h2, ORet (closed_answer f)).
Proof. exact @ProofsOwn.already_closed. Qed.
Print Assumptions C05_already_closed.

(** A streaming Body read in part, copied, closed. *)
Example C05_example :
  let E := demo [hello plain 4] in
  let cs := [NewReader 0; Call 1 (Read (buf 3)); Call 1 Copy] in
  let h := fst (history E 9 (initial [0%nat]) cs) in
  go_env E /\ reaches E 9 h /\ is_Some (h_b h !! 1%nat) /\
  snd (history E 9 h [Call 1 Close; Call 2 (Read (buf 3)); Call 1 (Read (buf 1)); Call 1 Copy; Call 1 (Seek 0 0)]) =
    [ORet (RErr None); ORet (RRead 3 (bs "lo ") None); ORet (RRead 0 (buf 1) (Some ErrClosed)); ORet (RBody 0 None); ORet RNoMethod].
Proof.
  cbv zeta. split; [apply demo_go|]. split.
  - exists [0%nat], [NewReader 0; Call 1 (Read (buf 3)); Call 1 Copy]. eexists.
    split; [repeat constructor; vm_compute; congruence|].
    split; [apply surjective_pairing|]. split; vm_compute; congruence.
  - split; [vm_compute; eauto|vm_compute; reflexivity].
Qed.
