(** * C21 — WriteTo on an empty Body *)
From stdpp Require Import gmap.
From Verif Require Import SeekSpec Witness.
From Verif Require SeekProofs.

(** It should return (0, nil) and never does. *)
Theorem C21_returns_EOF :
  forall (W : Type) (E : env W) (fuel : nat) (h : heap W) (i : nat) (b : emptyBody) (w : wid),
  h_b h !! i = Some (BEmpty b) -> em_closed b = false -> exec E fuel h (Call i (WriteTo w)) = (h, ORet (RWriteTo 0 (Some EOF))).
Proof. exact @SeekProofs.empty_writes. Qed.
Print Assumptions C21_returns_EOF.

Theorem C21_refuted :
  exists (W : Type) (E : env W) (fuel : nat) (w : W) h,
  go_env E /\ history E fuel (initial w) [NewEmpty; Call 1 (WriteTo 0)] = (h, [ORet (RBody 1 None); ORet (RWriteTo 0 (Some EOF))]).
Proof. exact @SeekProofs.empty_fails. Qed.
Print Assumptions C21_refuted.

Example C21_example :
  exists h b, history (scribe 3) 0 (initial []) [NewBytes []; Call 1 (Read (buf 6))] =
    (h, [ORet (RBody 1 None); ORet (RRead 0 (buf 6) (Some EOF))]) /\
  h_b h !! 1%nat = Some (BEmpty b) /\ em_closed b = false.
Proof. eexists _, _. split; [vm_compute; reflexivity|]. split; vm_compute; reflexivity. Qed.
