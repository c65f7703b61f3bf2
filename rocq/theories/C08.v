(** * C08 — copies do not interfere *)
From stdpp Require Import gmap.
From Verif Require Import CopySpec WitnessSource.
From Verif Require Copies.

(** In all theorems: [cs] is a program making the Body [i] and copies of it, [j]
    is one of them.  [csA] and [csB] are two ways to go on from there in which the
    same calls are made on [j], and anything is done with all other handles; for
    instance [csB] is [csA] with all calls on other handles deleted.  Then the
    results of the calls on [j] are the same, but for the names of new copies and,
    if there is a Reader, the errors of Close ([alike], see C07 for these). *)

(** In-memory Bodies, in any environment.  (The result of WriteTo is up to the
    Writer, see C20.) *)
Theorem C08_memory :
  forall (W : Type) (E : env W) (fuel : nat) (h : heap W) (c : cmd) (d : bytes),
  c = NewBytes d \/ (exists s, c = NewString s /\ list_ascii_of_string s = d) \/ (c = NewEmpty /\ d = []) ->
  go_cmd c ->
  exists h1 i, exec E fuel h c = (h1, ORet (RBody i None)) /\
  forall cs h2 os j csA hA osA csB hB osB,
  Forall go_cmd (cs ++ csA ++ csB) ->
  history E fuel h1 cs = (h2, os) -> history E fuel h2 csA = (hA, osA) -> history E fuel h2 csB = (hB, osB) ->
  OSpin ∉ os ++ osA ++ osB -> copy_of i cs os j ->
  ops_on j csA = ops_on j csB -> Forall (fun f => is_WriteTo f = false) (ops_on j csA) ->
  Forall2 (alike false) (seen j csA osA) (seen j csB osB).
Proof. exact @Copies.memory_copies. Qed.
Print Assumptions C08_memory.

(** Seekable Readers without faults (as in C02 and C03). *)
Theorem C08_seekable :
  forall (W : Type) (E : env W) (fuel : nat) (r : rid) (live : W -> Prop) (d : bytes),
  serves_at E r live d false /\ cp_readerat (ev_caps E r) = true \/
  serves_seek E r live d false /\ cp_readerat (ev_caps E r) = false /\ cp_seeker (ev_caps E r) = true ->
  forall (w : W) h1 i cs h os D j csA hA osA csB hB osB,
  live w -> wrapped_once E fuel r w h1 i cs h os -> OSpin ∉ os -> announces E fuel h1 i D -> 0 <= D <= zlen d ->
  copy_of i cs os j -> goes_on E fuel r h csA hA osA -> goes_on E fuel r h csB hB osB ->
  ops_on j csA = ops_on j csB -> Forall (fun f => is_WriteTo f = false) (ops_on j csA) ->
  Forall2 (alike true) (seen j csA osA) (seen j csB osB).
Proof. exact @Copies.seekable_copies. Qed.
Print Assumptions C08_seekable.

(** Streams, in chunks of any size (as in C04), ending with any error [e].  The
    exception is BytesRemaining, see below.  (If the declared length is just that
    of the stream, whether [e] or EOF is seen at the end is up to the Reader.) *)
Theorem C08_stream :
  forall (W : Type) (E : env W) (fuel : nat) (r : rid) (gp : W -> nat) (d : bytes) (e : error),
  streams E r gp d e ->
  forall (w : W) h1 i cs h os D j csA hA osA csB hB osB,
  gp w = 0%nat -> wrapped_once E fuel r w h1 i cs h os -> OSpin ∉ os -> streaming E fuel r h1 i D -> D <> zlen d \/ e = EOF ->
  copy_of i cs os j -> goes_on E fuel r h csA hA osA -> goes_on E fuel r h csB hB osB ->
  ops_on j csA = ops_on j csB -> Forall (fun f => is_BytesRemaining f = false) (ops_on j csA) ->
  Forall2 (alike true) (seen j csA osA) (seen j csB osB).
Proof. exact @Copies.stream_copies. Qed.
Print Assumptions C08_stream.

(** A passing fault of a seekable Reader: the failed Read of one handle lowers the
    length common to all.  The copy at position 6 of 11 then reports -6 bytes left
    and EOF at once; without the other handle it reports 5 and reads "world". *)
Theorem C08_refuted :
  exists (W : Type) (E : env W) (fuel : nat) (r : rid) (w : W) h1 i cs h os j csA hA osA csB hB osB,
  rule_abiding E /\ wrapped_once E fuel r w h1 i cs h os /\ OSpin ∉ os /\ copy_of i cs os j /\
  goes_on E fuel r h csA hA osA /\ goes_on E fuel r h csB hB osB /\ ops_on j csA = ops_on j csB /\
  csA = [Call i (Read (buf 3)); Call j BytesRemaining; Call j (Read (buf 5))] /\
  osA = [ORet (RRead 0 (buf 3) (Some (External 9))); ORet (RInt (-6)); ORet (RRead 0 (buf 5) (Some EOF))] /\
  csB = [Call j BytesRemaining; Call j (Read (buf 5))] /\
  osB = [ORet (RInt 5); ORet (RRead 5 (bs "world") None)] /\
  ~ Forall2 (alike true) (seen j csA osA) (seen j csB osB).
Proof. exact Copies.hiccup_spreads. Qed.
Print Assumptions C08_refuted.

(** Streams without faults: BytesRemaining of one copy is unknown (-1) until any
    copy makes the Reader report its end. *)
Theorem C08_refuted_remaining :
  exists (W : Type) (E : env W) (fuel : nat) (r : rid) gp d e (w : W) h1 i cs h os j csA hA osA csB hB osB,
  streams E r gp d e /\ gp w = 0%nat /\ wrapped_once E fuel r w h1 i cs h os /\ streaming E fuel r h1 i (-1) /\
  OSpin ∉ os /\ copy_of i cs os j /\
  goes_on E fuel r h csA hA osA /\ goes_on E fuel r h csB hB osB /\ ops_on j csA = ops_on j csB /\
  csA = [Call i (Read (buf 5)); Call j BytesRemaining] /\ osA = [ORet (RRead 5 (bs "hello") None); ORet (RInt 11)] /\
  csB = [Call j BytesRemaining] /\ osB = [ORet (RInt (-1))] /\
  ~ Forall2 (alike true) (seen j csA osA) (seen j csB osB).
Proof. exact Copies.remaining_spreads. Qed.
Print Assumptions C08_refuted_remaining.

(** The hypotheses of [C08_seekable] and [C08_stream] on a case with three handles. *)
Example C08_example :
  let E := archive (bs "hello world") seekable false None in
  let cs := [Call 1 Copy; Call 1 (Read (buf 4)); Call 2 (Seek 2 0); Call 2 Copy] in
  let csA := [Call 1 (Read (buf 9)); Call 3 (Read (buf 4)); Call 2 Close; Call 1 (Seek 0 0); Call 3 (Read (buf 2)); Call 3 Close; Call 1 (Read (buf 2))] in
  let csB := [Call 3 (Read (buf 4)); Call 3 (Read (buf 2)); Call 3 Close] in
  let h1 := fst (exec E 0 (initial (false, 0%nat)) (NewReader 0)) in
  let x := history E 0 h1 cs in let A := history E 0 (fst x) csA in let B := history E 0 (fst x) csB in
  serves_seek E 0 alive (bs "hello world") false /\ cp_readerat (ev_caps E 0) = false /\ cp_seeker (ev_caps E 0) = true /\ alive (false, 0%nat) /\
  wrapped_once E 0 0 (false, 0%nat) h1 1 cs (fst x) (snd x) /\ announces E 0 h1 1 11 /\ copy_of 1 cs (snd x) 3 /\
  goes_on E 0 0 (fst x) csA (fst A) (snd A) /\ goes_on E 0 0 (fst x) csB (fst B) (snd B) /\ ops_on 3 csA = ops_on 3 csB /\
  seen 3 csA (snd A) = [ORet (RRead 4 (bs "llo ") None); ORet (RRead 2 (bs "wo") None); ORet (RErr None)].
Proof.
  cbv zeta. split; [apply archive_serves_seek; done|]. split; [done|]. split; [done|]. split; [done|]. split.
  { split; [apply archive_go|]. exists [], []. eexists _, (NewReader 0).
    split; [repeat constructor; vm_compute; done|]. split; [repeat constructor; intros [|[? ?]]; congruence|]. split; [by left|].
    split; [vm_compute; reflexivity|]. split; [vm_compute; reflexivity|]. split; [apply surjective_pairing|]. split; vm_compute; done. }
  split; [vm_compute; reflexivity|]. split; [vm_compute; eauto|].
  split.
  { split; [apply surjective_pairing|]. split; [apply no_spin; vm_compute; done|].
    split; [repeat constructor; vm_compute; done|]. split; [repeat constructor; intros [|[? ?]]; congruence|]. split; vm_compute; done. }
  split.
  { split; [apply surjective_pairing|]. split; [apply no_spin; vm_compute; done|].
    split; [repeat constructor; vm_compute; done|]. split; [repeat constructor; intros [|[? ?]]; congruence|]. split; vm_compute; done. }
  split; vm_compute; reflexivity.
Qed.
