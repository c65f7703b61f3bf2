(** * C46 — BytesRemaining *)
From stdpp Require Import gmap.
From Verif Require Import RemainSpec WitnessSource.
From Verif Require Limits Remaining.

(** The number announced is the number of bytes delivered until an error is
    reported ([read_to_end]: on the handle [j], BytesRemaining answers [z] and then
    Reads of any sizes are made, the last one reporting an error; other handles are
    used in any way meanwhile).  [cs] is everything done before with the Body [i]
    and its copies, of which [j] is one.

    In memory, in any environment.  (A WriteTo that fails leaves bytes behind that
    are announced but can only be read after a Seek: [C20_refuted].) *)
Theorem C46_exact_memory :
  forall (W : Type) (E : env W) (fuel : nat) (h : heap W) (c : cmd) (d : bytes),
  c = NewBytes d \/ (exists s, c = NewString s /\ list_ascii_of_string s = d) \/ (c = NewEmpty /\ d = []) ->
  go_cmd c ->
  exists h1 i, exec E fuel h c = (h1, ORet (RBody i None)) /\
  forall cs h2 os j csA hA osA z e,
  Forall go_cmd (cs ++ csA) -> Forall no_WriteTo cs ->
  history E fuel h1 cs = (h2, os) -> history E fuel h2 csA = (hA, osA) -> OSpin ∉ os ++ osA -> copy_of i cs os j ->
  read_to_end j csA osA z e -> delivered (seen j csA osA) = z.
Proof. exact @Remaining.memory_exact. Qed.
Print Assumptions C46_exact_memory.

(** Sources without faults that can be read anywhere (as in C02 and C03). *)
Theorem C46_exact_seekable :
  forall (W : Type) (E : env W) (fuel : nat) (r : rid) (live : W -> Prop) (d : bytes) (early : bool),
  serves_at E r live d early /\ cp_readerat (ev_caps E r) = true \/
  serves_seek E r live d early /\ cp_readerat (ev_caps E r) = false /\ cp_seeker (ev_caps E r) = true ->
  forall (w : W) h1 i cs h os D j csA hA osA z e,
  live w -> wrapped_once E fuel r w h1 i cs h os -> OSpin ∉ os -> announces E fuel h1 i D -> 0 <= D <= zlen d ->
  copy_of i cs os j -> goes_on E fuel r h csA hA osA ->
  read_to_end j csA osA z e -> delivered (seen j csA osA) = z.
Proof. exact @Remaining.seekable_exact. Qed.
Print Assumptions C46_exact_seekable.

(** Streams, whatever the Reader does: exact, or -1, or the Reader has not
    delivered the number [D] of bytes declared to the constructor. *)
Theorem C46_exact_stream :
  forall (W : Type) (E : env W) (fuel : nat) (r : rid) (w : W) h1 i cs h os D j csA hA osA z e,
  wrapped_once E fuel r w h1 i cs h os -> OSpin ∉ os -> streaming E fuel r h1 i D ->
  copy_of i cs os j -> goes_on E fuel r h csA hA osA -> read_to_end j csA osA z e ->
  z = -1 \/ delivered (seen j csA osA) = z \/ zlen (stream (calls_on r (h_log hA))) < D.
Proof. exact @Remaining.stream_exact. Qed.
Print Assumptions C46_exact_stream.

(** Partial: every kind except the Seeker Body, and any Reader: never a negative
    number other than -1, and -1 only from a buffered Body. *)
Theorem C46_never_negative_partial :
  forall (W : Type) (E : env W) (fuel : nat) (h : heap W) i b,
  go_env E -> reaches E fuel h -> h_b h !! i = Some b -> (forall x, b <> BSeeker x) ->
  exists z, exec E fuel h (Call i BytesRemaining) = (h, ORet (RInt z)) /\
    (0 <= z \/ z = -1 /\ exists x, b = BBuffered x).
Proof. exact @Limits.remaining_bounds. Qed.
Print Assumptions C46_never_negative_partial.

(** False of the code for the Seeker Body: after a copy has met the end early,
    a handle further on announces a negative number of bytes. *)
Theorem C46_refuted :
  exists (W : Type) (E : env W) (h : heap W) i z,
  go_env E /\ rule_abiding E /\ reaches E 9 h /\
  exec E 9 h (Call i BytesRemaining) = (h, ORet (RInt z)) /\ z < -1.
Proof. exact Limits.negative_remaining. Qed.
Print Assumptions C46_refuted.

Example C46_example :
  let E := demo [hello plain 4] in
  let h := fst (history E 9 (initial [0%nat]) [NewReader 0; NewReaderLen 0 5; Call 2 (Read (buf 2))]) in
  reaches E 9 h /\ (exists x, h_b h !! 2%nat = Some (BBuffered x)) /\
  exec E 9 h (Call 1 BytesRemaining) = (h, ORet (RInt (-1))) /\
  exec E 9 h (Call 2 BytesRemaining) = (h, ORet (RInt 3)).
Proof.
  cbv zeta. split.
  { eexists _, _, _. split; [|split; [apply surjective_pairing|split; vm_compute; done]]. repeat constructor; vm_compute; done. }
  split; [eexists; vm_compute; reflexivity|]. split; vm_compute; reflexivity.
Qed.

(** A copy of a Body in memory, moved by Seek, read in steps while the original is read too. *)
Example C46_example_memory :
  let E := demo [] in
  let h1 := fst (exec E 0 (initial []) (NewString "hello world")) in
  let cs := [Call 1 (Read (buf 4)); Call 1 Copy; Call 2 (Seek (-8) 2)] in
  let csA := [Call 2 BytesRemaining; Call 1 (Read (buf 2)); Call 2 (Read (buf 5)); Call 1 Close; Call 2 (Read (buf 0)); Call 2 (Read (buf 5))] in
  let x := history E 0 h1 cs in
  let y := history E 0 (fst x) csA in
  Forall go_cmd (cs ++ csA) /\ Forall no_WriteTo cs /\ OSpin ∉ snd x ++ snd y /\ copy_of 1 cs (snd x) 2 /\ read_to_end 2 csA (snd y) 8 EOF.
Proof.
  cbv zeta. split; [repeat constructor; vm_compute; done|]. split; [by repeat constructor|].
  split; [apply no_spin; vm_compute; done|]. split; [vm_compute; eauto|].
  exists [buf 5; buf 0; buf 5], [RRead 5 (bs "lo wo") None; RRead 0 [] None], 3, (bs "rld" ++ buf 2). split; vm_compute; reflexivity.
Qed.

Example C46_example_seekable :
  let E := archive (bs "hello world") seekable false None in
  let h1 := fst (exec E 0 (initial (false, 0%nat)) (NewReader 0)) in
  let cs := [Call 1 Copy; Call 1 (Read (buf 4)); Call 2 (Seek 2 0)] in
  let csA := [Call 1 (Read (buf 9)); Call 2 BytesRemaining; Call 2 (Read (buf 4)); Call 1 (Seek 0 0); Call 2 (Read (buf 6))] in
  let x := history E 0 h1 cs in
  let y := history E 0 (fst x) csA in
  serves_seek E 0 alive (bs "hello world") false /\ alive (false, 0%nat) /\
  wrapped_once E 0 0 (false, 0%nat) h1 1 cs (fst x) (snd x) /\ OSpin ∉ snd x /\ announces E 0 h1 1 11 /\ copy_of 1 cs (snd x) 2 /\
  goes_on E 0 0 (fst x) csA (fst y) (snd y) /\ read_to_end 2 csA (snd y) 9 EOF.
Proof.
  cbv zeta. split; [apply archive_serves_seek; done|]. split; [done|]. split.
  { split; [apply archive_go|]. exists [], []. eexists _, (NewReader 0).
    split; [repeat constructor; vm_compute; done|]. split; [repeat constructor; intros [|[? ?]]; congruence|]. split; [by left|].
    split; [vm_compute; reflexivity|]. split; [vm_compute; reflexivity|]. split; [apply surjective_pairing|]. split; vm_compute; done. }
  split; [apply no_spin; vm_compute; done|]. split; [vm_compute; reflexivity|]. split; [vm_compute; eauto|].
  split.
  { split; [apply surjective_pairing|]. split; [apply no_spin; vm_compute; done|].
    split; [repeat constructor; vm_compute; done|]. split; [repeat constructor; intros [|[? ?]]; congruence|]. split; vm_compute; done. }
  exists [buf 4; buf 6], [RRead 4 (bs "llo ") None], 5, (bs "world" ++ buf 1). split; vm_compute; reflexivity.
Qed.

(** A stream in chunks of four bytes; another copy has already met its end. *)
Example C46_example_stream :
  let E := lone (hello plain 4) in
  let h1 := fst (exec E 9 (initial 0%nat) (NewReader 0)) in
  let cs := [Call 1 Copy; Call 1 (Read (buf 20)); Call 2 (Read (buf 2))] in
  let csA := [Call 2 BytesRemaining; Call 1 Close; Call 2 (Read (buf 4)); Call 2 (Read (buf 6))] in
  let x := history E 9 h1 cs in
  let y := history E 9 (fst x) csA in
  wrapped_once E 9 0 0%nat h1 1 cs (fst x) (snd x) /\ OSpin ∉ snd x /\ streaming E 9 0 h1 1 (-1) /\ copy_of 1 cs (snd x) 2 /\
  goes_on E 9 0 (fst x) csA (fst y) (snd y) /\ read_to_end 2 csA (snd y) 9 EOF.
Proof.
  cbv zeta. split.
  { split; [apply lone_go|]. exists [], []. eexists _, (NewReader 0).
    split; [repeat constructor; vm_compute; done|]. split; [repeat constructor; intros [|[? ?]]; congruence|]. split; [by left|].
    split; [vm_compute; reflexivity|]. split; [vm_compute; reflexivity|]. split; [apply surjective_pairing|]. split; vm_compute; done. }
  split; [apply no_spin; vm_compute; done|]. split; [split; vm_compute; reflexivity|]. split; [vm_compute; eauto|].
  split.
  { split; [apply surjective_pairing|]. split; [apply no_spin; vm_compute; done|].
    split; [repeat constructor; vm_compute; done|]. split; [repeat constructor; intros [|[? ?]]; congruence|]. split; vm_compute; done. }
  exists [buf 4; buf 6], [RRead 4 (bs "llo ") None], 5, (bs "world" ++ buf 1). split; vm_compute; reflexivity.
Qed.
