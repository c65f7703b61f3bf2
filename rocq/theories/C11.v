(** * C11 — Read and ReadAt never over-report and never write outside *)
From stdpp Require Import gmap.
From Verif Require Import Spec Witness.
From Verif Require Any Preserve.

(** Every handle of every kind, every state of the outside world.  [buffer_ok]:
    0 <= n <= len(p), the length of the buffer stays, and nothing beyond the part
    lent to the Reader (Seeker and ReaderAt Bodies), or beyond the [n] bytes
    reported (all other Bodies), is changed. *)
Theorem C11_count_and_buffer :
  forall (W : Type) (E : env W) (fuel : nat) (h : heap W) i b f p h' n p' err,
  go_env E -> reaches E fuel h ->
  h_b h !! i = Some b -> go_op f -> (f = Read p \/ exists off, f = ReadAt p off) ->
  exec E fuel h (Call i f) = (h', ORet (RRead n p' err)) ->
  exists evs, h_log h' = h_log h ++ evs /\ buffer_ok b p evs n p'.
Proof. exact @Any.reached_read_buffer. Qed.
Print Assumptions C11_count_and_buffer.

(** If BytesRemaining announces [z] bytes then Read reports no more than [z] and
    changes nothing beyond the first [z] bytes of the buffer. *)
Theorem C11_no_more_than_announced :
  forall (W : Type) (E : env W) (fuel : nat) (h : heap W) i z p h' n p' err,
  go_env E -> reaches E fuel h -> zlen p <= max_slice ->
  exec E fuel h (Call i BytesRemaining) = (h, ORet (RInt z)) -> 0 <= z ->
  exec E fuel h (Call i (Read p)) = (h', ORet (RRead n p' err)) ->
  n <= z /\ drop (Z.to_nat z) p' = drop (Z.to_nat z) p.
Proof. exact @Any.reached_read_available. Qed.
Print Assumptions C11_no_more_than_announced.

(** A Seeker Body at offset 8 of 11, read into 6 bytes: 3 are lent and reported. *)
Example C11_example :
  let E := demo [hello seekable 4] in
  let h := fst (history E 9 (initial [0%nat]) [NewReader 0; Call 1 (Seek 8 0)]) in
  let x := exec E 9 h (Call 1 (Read (bs "123456"))) in
  go_env E /\ reaches E 9 h /\ go_op (Read (bs "123456")) /\
  exec E 9 h (Call 1 BytesRemaining) = (h, ORet (RInt 3)) /\
  snd x = ORet (RRead 3 (bs "rld456") (Some EOF)) /\
  h_log (fst x) = h_log h ++ [EvSeek 0 8 0 8 None; EvRead 0 3 3 (bs "rld") None] /\
  (exists b, h_b h !! 1%nat = Some b /\ seekable_kind b = true).
Proof.
  cbv zeta. split; [apply demo_go|]. split.
  { eexists _, _, _. split; [|split; [apply surjective_pairing|split; vm_compute; done]]. repeat constructor; vm_compute; done. }
  split; [vm_compute; done|]. split; [vm_compute; reflexivity|]. split; [vm_compute; reflexivity|]. split; [vm_compute; reflexivity|].
  eexists. split; vm_compute; reflexivity.
Qed.
