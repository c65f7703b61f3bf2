(** * C06 — the backing Reader is closed exactly once, by the last Close *)
From stdpp Require Import gmap.
From Verif Require Import Spec Witness.
From Verif Require ProofsOwn.

(** A program that passes the Reader [r] to a constructor once ([new]), and does
    anything else before ([cs0]) and after ([cs]).  [tracks] is the table of the
    handles of this family as the program sees them.  As long as one of them is
    open the Reader has not been closed; once all are closed it has been closed
    once, and this was the last call on it.  Since [cs] is arbitrary this holds
    after every prefix of every program, so the Close is made in the very call
    that closes the last handle. *)
Theorem C06_closed_exactly_once :
  forall (W : Type) (E : env W) (fuel : nat) (r : rid) (w : W) cs0 os0 h0 new h1 i cs h2 os,
  go_env E ->
  Forall go_cmd (cs0 ++ new :: cs) ->
  Forall (fun c => ~ wraps r c) (cs0 ++ cs) ->
  wraps r new ->
  history E fuel (initial w) cs0 = (h0, os0) ->
  exec E fuel h0 new = (h1, ORet (RBody i None)) ->
  history E fuel h1 cs = (h2, os) ->
  feasible h2 ->
  (~ all_closed (tracks {[ i := true ]} cs os) -> Forall not_close (calls_on r (h_log h2))) /\
  (all_closed (tracks {[ i := true ]} cs os) ->
     if is_closer (ev_caps E r)
     then exists pre err, calls_on r (h_log h2) = pre ++ [EvClose r err] /\ Forall not_close pre
     else Forall not_close (calls_on r (h_log h2))).
Proof. exact @ProofsOwn.closed_exactly_once. Qed.
Print Assumptions C06_closed_exactly_once.

(** Three handles on one Reader, closed in some order; another Reader besides. *)
Example C06_example :
  let E := demo [hello random_access 4; hello plain 4] in
  let cs0 := [NewReader 1; Call 1 (Read (buf 2))] in
  let cs := [Call 2 Copy; Call 3 Copy; Call 3 (Read (buf 2)); Call 3 Close; Call 1 Close; Call 2 Close; Call 2 Close; Call 4 Close] in
  let h0 := fst (history E 9 (initial [0; 0]%nat) cs0) in
  let h1 := fst (exec E 9 h0 (NewReader 0)) in
  let x := history E 9 h1 cs in
  go_env E /\ Forall go_cmd (cs0 ++ NewReader 0 :: cs) /\ Forall (fun c => ~ wraps 0 c) (cs0 ++ cs) /\ wraps 0 (NewReader 0) /\
  exec E 9 h0 (NewReader 0) = (h1, ORet (RBody 2 None)) /\ feasible (fst x) /\
  all_closed (tracks {[ 2%nat := true ]} cs (snd x)) /\
  ~ all_closed (tracks {[ 2%nat := true ]} (take 7 cs) (snd (history E 9 h1 (take 7 cs)))) /\
  List.filter (fun ev => match ev with EvClose _ _ => true | _ => false end) (h_log (fst x)) = [EvClose 1 None; EvClose 0 None].
Proof.
  cbv zeta. split; [apply demo_go|]. split; [repeat constructor; vm_compute; congruence|].
  split; [repeat constructor; intros [|[? ?]]; congruence|]. split; [by left|]. split; [vm_compute; reflexivity|].
  split; [split; vm_compute; congruence|]. split.
  - assert (H : forall t : handles, map_Forall (fun _ b => b = false) t -> all_closed t).
    { intros t Ht i Hi. apply Ht in Hi. done. }
    apply H. apply (bool_decide_unpack _). vm_compute. exact I.
  - split; [|vm_compute; reflexivity].
    intros H. apply (H 4%nat). vm_compute. reflexivity.
Qed.
