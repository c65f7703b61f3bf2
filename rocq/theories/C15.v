(** * C15 — A buffered Body never reads a Reader that has failed or been closed *)
From stdpp Require Import gmap.
From Verif Require Import StreamSpec Witness.
From Verif Require ProofsStream.

(** [before]: the calls made on the Reader before the call [ev].  No call follows
    a Close; no Read follows an error, nor the last byte of the declared length.
    Streaming Bodies call nothing but Read, Close and Stat. *)
Theorem C15_never_again :
  forall (W : Type) (E : env W) (fuel : nat) (r : rid) (w : W) h1 i cs h2 os (D : Z) before ev after,
  wrapped_once E fuel r w h1 i cs h2 os -> streaming E fuel r h1 i D ->
  calls_on r (h_log h2) = before ++ ev :: after ->
  Forall not_close before /\
  match ev with
  | EvRead _ _ _ _ _ => first_error before = None /\ (0 <= D -> zlen (stream before) < D)
  | EvClose _ _ | EvStat _ _ _ => True
  | _ => False
  end.
Proof. exact @ProofsStream.never_again. Qed.
Print Assumptions C15_never_again.

(** Two handles read on after the error, and after one of them is closed. *)
Example C15_example :
  let E := lone (hello plain 20) in
  let cs := [Call 1 Copy; Call 1 (Read (buf 20)); Call 1 (Read (buf 3)); Call 2 (Read (buf 30)); Call 2 (Read (buf 5)); Call 1 Close; Call 2 (Read (buf 5)); Call 2 Close; Call 2 (Read (buf 1))] in
  let h1 := fst (exec E 9 (initial 0%nat) (NewReader 0)) in
  let x := history E 9 h1 cs in
  wrapped_once E 9 0 0%nat h1 1 cs (fst x) (snd x) /\ streaming E 9 0 h1 1 (-1) /\
  calls_on 0 (h_log (fst x)) = [EvRead 0 65536 11 (bs "hello world") None; EvRead 0 65525 0 [] (Some EOF); EvClose 0 None] /\
  snd x = [ORet (RBody 2 None); ORet (RRead 11 (bs "hello world" ++ buf 9) (Some EOF)); ORet (RRead 0 (buf 3) (Some EOF));
           ORet (RRead 11 (bs "hello world" ++ buf 19) (Some EOF)); ORet (RRead 0 (buf 5) (Some EOF)); ORet (RErr None);
           ORet (RRead 0 (buf 5) (Some EOF)); ORet (RErr None); ORet (RRead 0 (buf 1) (Some ErrClosed))].
Proof.
  cbv zeta. split.
  { split; [apply lone_go|]. exists [], []. eexists _, (NewReader 0).
    split; [repeat constructor; vm_compute; done|]. split; [repeat constructor; intros [|[? ?]]; congruence|]. split; [by left|].
    split; [vm_compute; reflexivity|]. split; [vm_compute; reflexivity|]. split; [apply surjective_pairing|]. split; vm_compute; done. }
  split; [split; vm_compute; reflexivity|]. split; vm_compute; reflexivity.
Qed.
