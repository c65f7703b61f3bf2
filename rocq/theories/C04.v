(** * C04 — Buffered bodies are independent ideal cursors for any chunking *)
From stdpp Require Import gmap.
From Verif Require Import StreamSpec Witness.
From Verif Require ProofsStream.

(** Any Reader, any program.  [L] are the calls made on the Reader in the whole
    program, [stream L] the bytes it has delivered, [terminal D L] the error the
    stream has ended with, if it has.  Every observation made through any copy is
    the one of a cursor over [stream L] that is moved by nothing but the Reads
    through this copy ([follow]). *)
Theorem C04_one_stream :
  forall (W : Type) (E : env W) (fuel : nat) (r : rid) (w : W) h1 i cs h2 os (D : Z),
  wrapped_once E fuel r w h1 i cs h2 os -> streaming E fuel r h1 i D ->
  let L := calls_on r (h_log h2) in
  stream_trace (exists ev, ev ∈ L /\ lies ev) (final_answer D (stream L) (terminal D L) r) {[ i := At 0 false ]} cs os.
Proof. exact @ProofsStream.one_stream. Qed.
Print Assumptions C04_one_stream.

(** If the Reader streams [d] and then reports [e], in whatever chunks, the bytes
    served are those of [d] (cut at the declared length), and no call panics. *)
Theorem C04_ideal_cursors :
  forall (W : Type) (E : env W) (fuel : nat) (r : rid) (gp : W -> nat) (d : bytes) (e : error),
  streams E r gp d e ->
  forall (w : W) h1 i cs h2 os (D : Z),
  gp w = 0%nat ->
  wrapped_once E fuel r w h1 i cs h2 os -> streaming E fuel r h1 i D ->
  exists e', end_error D d e e' /\
  stream_trace False (final_answer D (cut D d) (Some e') r) {[ i := At 0 false ]} cs os.
Proof. exact @ProofsStream.faithful. Qed.
Print Assumptions C04_ideal_cursors.

(** Two copies of a stream that comes in chunks of three bytes and ends with an
    error of its own; another Body besides. *)
Example C04_example :
  let s := {| so_data := bs "hello"; so_caps := plain; so_chunk := 3; so_last := External 7; so_close := None |} in
  let E := lone s in
  let cs0 := [NewBytes (bs "x")] in
  let cs := [Call 2 (Read (buf 2)); Call 2 Copy; Call 2 (Read (buf 9)); Call 3 (Read (buf 2)); Call 1 (Read (buf 1)); Call 2 Close; Call 3 (Read (buf 2)); Call 3 (Read (buf 0))] in
  let h0 := fst (history E 9 (initial 0%nat) cs0) in
  let h1 := fst (exec E 9 h0 (NewReader 0)) in
  let x := history E 9 h1 cs in
  streams E 0 (fun w => Nat.min w 5) (bs "hello") (External 7) /\
  wrapped_once E 9 0 0%nat h1 2 cs (fst x) (snd x) /\ streaming E 9 0 h1 2 (-1) /\
  snd x = [ORet (RRead 2 (bs "he") None); ORet (RBody 3 None); ORet (RRead 3 (bs "llo" ++ buf 6) (Some (External 7)));
           ORet (RRead 2 (bs "ll") None); ORet (RRead 1 (bs "x") None); ORet (RErr None);
           ORet (RRead 1 (bs "o" ++ buf 1) (Some (External 7))); ORet (RRead 0 [] (Some (External 7)))] /\
  calls_on 0 (h_log (fst x)) =
    [EvRead 0 65536 3 (bs "hel") None; EvRead 0 65533 2 (bs "lo") None; EvRead 0 65531 0 [] (Some (External 7))].
Proof.
  cbv zeta. split; [by apply (lone_streams {| so_data := bs "hello"; so_caps := plain; so_chunk := 3; so_last := External 7; so_close := None |}); cbn; lia|].
  split.
  { split; [apply lone_go|]. exists [NewBytes (bs "x")], [ORet (RBody 1 None)]. eexists _, (NewReader 0).
    split; [repeat constructor; vm_compute; done|]. split; [repeat constructor; intros [|[? ?]]; congruence|]. split; [by left|].
    split; [vm_compute; reflexivity|]. split; [vm_compute; reflexivity|]. split; [apply surjective_pairing|]. split; vm_compute; done. }
  split; [split; vm_compute; reflexivity|]. split; vm_compute; reflexivity.
Qed.

(** A declared length shorter than the stream. *)
Example C04_example_length :
  let E := lone (hello plain 4) in
  let cs := [Call 1 BytesRemaining; Call 1 (Read (buf 3)); Call 1 Copy; Call 1 (Read (buf 9)); Call 2 BytesRemaining; Call 2 (Read (buf 9))] in
  let h1 := fst (exec E 9 (initial 0%nat) (NewReaderLen 0 7)) in
  let x := history E 9 h1 cs in
  wrapped_once E 9 0 0%nat h1 1 cs (fst x) (snd x) /\ streaming E 9 0 h1 1 7 /\
  snd x = [ORet (RInt 7); ORet (RRead 3 (bs "hel") None); ORet (RBody 2 None); ORet (RRead 4 (bs "lo w" ++ buf 5) (Some EOF));
           ORet (RInt 4); ORet (RRead 4 (bs "lo w" ++ buf 5) (Some EOF))] /\
  calls_on 0 (h_log (fst x)) = [EvRead 0 7 4 (bs "hell") None; EvRead 0 3 3 (bs "o w") None].
Proof.
  cbv zeta. split.
  { split; [apply lone_go|]. exists [], []. eexists _, (NewReaderLen 0 7).
    split; [repeat constructor; vm_compute; done|]. split; [repeat constructor; intros [|[? ?]]; congruence|]. split; [right; by eexists|].
    split; [vm_compute; reflexivity|]. split; [vm_compute; reflexivity|]. split; [apply surjective_pairing|]. split; vm_compute; done. }
  split; [split; vm_compute; reflexivity|]. split; vm_compute; reflexivity.
Qed.
