(** * C09 — Seek arithmetic *)
From stdpp Require Import gmap.
From Verif Require Import SeekSpec Witness.
From Verif Require SeekProofs.

(** In every reachable state of an open seekable Body there is a length [len] and a
    position [pos], with BytesRemaining their difference.  (If a fault lowered the
    length below the position, see C02 and C03, the ReaderAt kind reports 0.)  Seek
    fails, leaving everything as it was, just in the cases stated, and otherwise
    goes to base + offset, at most to the end, changing nothing but this Body. *)
Theorem C09_seek :
  forall (W : Type) (E : env W) (fuel : nat) (h : heap W) (i : nat) (b : bobj),
  go_env E -> reaches E fuel h -> h_b h !! i = Some b -> open_seekable b = true ->
  exists len pos rem,
    0 <= len <= max_i64 /\ 0 <= pos <= max_i64 /\
    exec E fuel h (Call i BytesRemaining) = (h, ORet (RInt rem)) /\ (rem = len - pos \/ len <= pos /\ rem = 0) /\
    forall off whence, in_i64 off -> in_i64 whence ->
    let t := seek_target len pos off whence in
    (seek_fails len pos off whence ->
       exec E fuel h (Call i (Seek off whence)) = (h, ORet (RSeek (-1) (Some (
         if (whence =? 0) && (off <? 0) then NegativeStartOffset off
         else if (whence <? 0) || (2 <? whence) then UnknownWhence whence
         else NegativeComputedOffset t))))) /\
    (0 <= whence <= 2 -> max_i64 < t ->
       exec E fuel h (Call i (Seek off whence)) = (h, ORet (RSeek (-1) (Some (NegativeComputedOffset (t - 2 ^ 64)))))) /\
    (~ seek_fails len pos off whence -> t <= max_i64 ->
       let n := Z.min t len in
       let h' := with_body h i (moved_to b n) in
       exec E fuel h (Call i (Seek off whence)) = (h', ORet (RSeek n None)) /\
       exec E fuel h' (Call i BytesRemaining) = (h', ORet (RInt (len - n)))).
Proof. exact @SeekProofs.seek_arithmetic. Qed.
Print Assumptions C09_seek.

(** Seeking forward from position 3 of 5 by the largest offset: an error and not the end. *)
Theorem C09_refuted :
  exists (W : Type) (E : env W) (fuel : nat) (w : W) (d : bytes) (off : Z),
  go_env E /\ in_i64 off /\ 0 < off /\
  exists h err, history E fuel (initial w) [NewBytes d; Call 1 (Seek 3 0); Call 1 (Seek off 1); Call 1 BytesRemaining] =
    (h, [ORet (RBody 1 None); ORet (RSeek 3 None); ORet (RSeek (-1) (Some err)); ORet (RInt (zlen d - 3))]).
Proof. exact @SeekProofs.seek_wraps. Qed.
Print Assumptions C09_refuted.

Example C09_example :
  let E := demo [hello seekable 4] in
  exists h, history E 0 (initial [0%nat]) [NewReaderLen 0 11; Call 1 (Read (buf 4))] =
    (h, [ORet (RBody 1 None); ORet (RRead 4 (bs "hell") None)]) /\
  (exists b, h_b h !! 1%nat = Some b /\ open_seekable b = true) /\
  seek_target 11 4 2 1 = 6 /\ ~ seek_fails 11 4 2 1 /\ seek_fails 11 4 (-5) 1 /\
  (exec E 0 h (Call 1 (Seek 2 1))).2 = ORet (RSeek 6 None) /\
  (exec E 0 h (Call 1 (Seek 100 1))).2 = ORet (RSeek 11 None) /\
  (exec E 0 h (Call 1 (Seek (-5) 1))).2 = ORet (RSeek (-1) (Some (NegativeComputedOffset (-1)))).
Proof.
  eexists. split; [vm_compute; reflexivity|]. split; [eexists; split; vm_compute; reflexivity|]. unfold seek_fails.
  repeat split; try (vm_compute; reflexivity); vm_compute; intuition congruence.
Qed.
