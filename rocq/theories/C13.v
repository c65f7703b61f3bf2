(** * C13 — Buffered bodies keep exactly the bytes still needed *)
From stdpp Require Import gmap.
From Verif Require Import StreamSpec Witness.
From Verif Require ProofsStream.

(** [t]: the handles of the family and their positions as the program sees them.
    After any program the buffer shared by them (the [cm] every open handle points
    to) holds the bytes of the stream from position [lo] on up to the last one
    delivered, where [lo] is the least position of an open handle.  If there is no
    open handle it is empty. *)
Theorem C13_exact_buffer :
  forall (W : Type) (E : env W) (fuel : nat) (r : rid) (w : W) h1 i cs h2 os (D : Z),
  wrapped_once E fuel r w h1 i cs h2 os -> streaming E fuel r h1 i D ->
  let t := follows {[ i := At 0 false ]} cs os in
  exists c cm, h_c h2 !! c = Some (CBuffered cm) /\
    (forall j pos ended, t !! j = Some (At pos ended) -> exists b, h_b h2 !! j = Some (BBuffered b) /\ bb_common b = Some c) /\
    ((forall j pos ended, t !! j <> Some (At pos ended)) /\ bc_bytes cm = [] \/
     exists lo, bc_start cm = Z.of_nat lo /\ bc_bytes cm = drop lo (stream (calls_on r (h_log h2))) /\
       (exists j ended, t !! j = Some (At lo ended)) /\ (forall j pos ended, t !! j = Some (At pos ended) -> (lo <= pos)%nat)).
Proof. exact @ProofsStream.exact_buffer. Qed.
Print Assumptions C13_exact_buffer.

(** The slower copy determines what is kept; when it is closed the buffer shrinks. *)
Example C13_example :
  let E := lone (hello plain 4) in
  let cs := [Call 1 Copy; Call 1 (Read (buf 7)); Call 2 (Read (buf 2)); Call 2 Close] in
  let h1 := fst (exec E 9 (initial 0%nat) (NewReader 0)) in
  let x := history E 9 h1 cs in
  let y := history E 9 h1 (take 3 cs) in
  wrapped_once E 9 0 0%nat h1 1 cs (fst x) (snd x) /\ streaming E 9 0 h1 1 (-1) /\
  h_c (fst x) = [CBuffered {| bc_r := Some 0%nat; bc_err := Some EOF; bc_bodies := Some [1%nat]; bc_bytes := bs "orld"; bc_length := 11; bc_start := 7; bc_refcnt := 1 |}] /\
  h_c (fst y) = [CBuffered {| bc_r := Some 0%nat; bc_err := Some EOF; bc_bodies := Some [1; 2]%nat; bc_bytes := bs "llo world"; bc_length := 11; bc_start := 2; bc_refcnt := 1 |}].
Proof.
  cbv zeta. split.
  { split; [apply lone_go|]. exists [], []. eexists _, (NewReader 0).
    split; [repeat constructor; vm_compute; done|]. split; [repeat constructor; intros [|[? ?]]; congruence|]. split; [by left|].
    split; [vm_compute; reflexivity|]. split; [vm_compute; reflexivity|]. split; [apply surjective_pairing|]. split; vm_compute; done. }
  split; [split; vm_compute; reflexivity|]. split; vm_compute; reflexivity.
Qed.
