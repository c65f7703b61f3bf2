(** * C16 — trimming the buffer does not depend on map iteration order *)
From stdpp Require Import gmap.
From Verif Require Import Spec Witness.
From Verif Require Order.

(** updateStart is the only function that iterates over the map of copies.  Run
    it on any heap, with the copies listed in the order [l] and in any other
    order [l']: the outcome is the same, nothing but the shared object changes,
    and the shared object is the same up to the order of the list. *)
Theorem C16_iteration_order_irrelevant :
  forall (W : Type) (E : env W) (h : heap W) c cm l l',
  h_c h !! c = Some (CBuffered cm) -> bc_bodies cm = Some l -> l ≡ₚ l' -> zlen l < 2 ^ 31 ->
  let h' := set_c h (<[c := CBuffered (Order.reorder l' cm)]> (h_c h)) in
  let '(h1, o) := run E h (buffered_updateStart c) in
  let '(h1', o') := run E h' (buffered_updateStart c) in
  o' = o /\ exists cm1, h_c h1 !! c = Some (CBuffered cm1) /\ bc_bodies cm1 = Some l /\
    h1 = set_c h (<[c := CBuffered cm1]> (h_c h)) /\
    h1' = set_c h (<[c := CBuffered (Order.reorder l' cm1)]> (h_c h)).
Proof. exact @Order.updateStart_order. Qed.
Print Assumptions C16_iteration_order_irrelevant.

(** Three copies at offsets 7, 3 and 3: the buffer is cut to start at 3 and two
    copies are counted there, in either order. *)
Example C16_example :
  let at_ off := BBuffered {| bb_common := Some 0%nat; bb_offset := off; bb_eof := false; bb_closed := false |} in
  let cm l st d n := CBuffered {| bc_r := Some 0%nat; bc_err := None; bc_bodies := Some l; bc_bytes := bs d; bc_length := -1; bc_start := st; bc_refcnt := n |} in
  let mk x := {| h_b := [BClosed; at_ 7; at_ 3; at_ 3]; h_c := [x]; h_w := [0%nat]; h_log := [] |} in
  let E := demo [hello plain 4] in
  [1; 2; 3]%nat ≡ₚ [3; 1; 2]%nat /\
  run E (mk (cm [1; 2; 3]%nat 1 "ello worl" 0)) (buffered_updateStart 0) = (mk (cm [1; 2; 3]%nat 3 "lo worl" 2), ORet tt) /\
  run E (mk (cm [3; 1; 2]%nat 1 "ello worl" 0)) (buffered_updateStart 0) = (mk (cm [3; 1; 2]%nat 3 "lo worl" 2), ORet tt).
Proof. cbv zeta. split; [|split; vm_compute; reflexivity]. rewrite (Permutation_app_comm [1; 2] [3])%nat. done. Qed.
