(** * C18 — FromReader picks the promised implementation and length *)
From stdpp Require Import gmap.
From Verif Require Import Spec Witness.
From Verif Require ProofsOwn.

(** [probe] (Spec.v) says which calls are made on the Reader and what length or
    error they give.  A known length and ReadAt or Seek give a Body with Seek and
    ReadAt, everything else a streaming Body; a failure creates no Body. *)
Theorem C18_from_reader_and_length :
  forall (W : Type) (E : env W) (fuel : nat) (h : heap W) (r : rid) (len : Z) (h' : heap W) (o : out res),
  in_i64 len -> exec E fuel h (NewReaderLen r len) = (h', o) ->
  exists evs x, h_log h' = h_log h ++ evs /\ probe r (ev_caps E r) len evs x /\
  match x with
  | Found l =>
      exists b c, h_b h' = h_b h ++ [b] /\ h_c h' = h_c h ++ [c] /\ o = ORet (RBody (length (h_b h)) None) /\
        exec E fuel h' (Call (length (h_b h)) BytesRemaining) = (h', ORet (RInt l)) /\
        seekable_kind b = (cp_readerat (ev_caps E r) || cp_seeker (ev_caps E r)) && (0 <=? l) /\
        (forall p off, has_method b (ReadAt p off) = seekable_kind b) /\ (forall off wh, has_method b (Seek off wh) = seekable_kind b)
  | Failed e => h_b h' = h_b h /\ h_c h' = h_c h /\ o = ORet (RFail e)
  | NegativeSize => h_b h' = h_b h /\ h_c h' = h_c h /\ o = OPanic PAssert
  end.
Proof. exact @ProofsOwn.from_reader. Qed.
Print Assumptions C18_from_reader_and_length.

(** FromReader is FromReaderAndLength with length -1 ... *)
Theorem C18_from_reader :
  forall (W : Type) (E : env W) (fuel : nat) (h : heap W) (r : rid),
  exec E fuel h (NewReader r) = exec E fuel h (NewReaderLen r (-1)).
Proof. exact @ProofsOwn.from_reader_default. Qed.
Print Assumptions C18_from_reader.

(** ... except that a Body is returned as it is. *)
Theorem C18_from_body :
  forall (W : Type) (E : env W) (fuel : nat) (h : heap W) (b : nat) (o : bobj),
  h_b h !! b = Some o -> exec E fuel h (NewReaderBody b) = (h, ORet (RBody b None)).
Proof. exact @ProofsOwn.from_reader_body. Qed.
Print Assumptions C18_from_body.

(** A seekable source of 11 bytes: the length is found by two Seeks. *)
Example C18_example :
  let E := demo [hello seekable 4] in
  let h := initial [5%nat] in
  let h' := fst (exec E 9 h (NewReaderLen 0 (-7))) in
  in_i64 (-7) /\ exec E 9 h (NewReaderLen 0 (-7)) = (h', ORet (RBody 1 None)) /\
  h_log h' = [EvSeek 0 0 SeekEnd 11 None; EvSeek 0 0 SeekStart 0 None] /\
  probe 0 (ev_caps E 0) (-7) (h_log h') (Found 11) /\
  exec E 9 h' (Call 1 BytesRemaining) = (h', ORet (RInt 11)).
Proof.
  cbv zeta. split; [unfold in_i64; vm_compute; split; congruence|]. split; [vm_compute; reflexivity|]. split; [vm_compute; reflexivity|].
  split; [|vm_compute; reflexivity]. eexists 11, None, _. split; [vm_compute; reflexivity|]. eexists 0, None. done.
Qed.
