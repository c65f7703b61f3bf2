(** * C58: the Content-Length that Build fills in is the number of bytes Serve sends *)
From stdpp Require Import gmap.
From Verif Require Import LengthSpec WitnessServe LengthWitness.
From Verif Require LengthMain.

(** [builds U fuel s b j s' p]: in [s] a Builder without Content-Length makes the
    Response [p] with body [j].  [labelled s' p j v]: the Response has this body and
    the header Content-Length is [v].  [delivers U fuel busy s2 j R]: a Serve of a
    Response with body [j] on a client that accepts everything sends exactly [R].
    In [s2] the program may have done anything else, but Body [j] is as it was when
    the Response was built. *)

(** Bytes in memory, in the middle of any program.  The Body has not stopped at the
    error of a Writer ([C20_refuted]). *)
Theorem C58_memory : forall (V : Type) (U : uenv V) (fuel : nat), forall s b j s' p y, builds U fuel s b j s' p ->
  runs_to U fuel s -> h_b (s_h s) !! j = Some (BBytes y) -> by_closed y = false -> (by_eof y = true -> by_offset y = zlen (by_data y)) ->
  exists R, labelled s' p j (Some (decimal (zlen R))) /\
    forall s2, runs_to U fuel s2 -> h_b (s_h s2) !! j = h_b (s_h s') !! j -> delivers U fuel False s2 j R.
Proof. exact @LengthMain.memory_length. Qed.
Print Assumptions C58_memory.

(** The empty Body, which sends nothing ([C24_empty]). *)
Theorem C58_empty : forall (V : Type) (U : uenv V) (fuel : nat), forall s b j s' p y, builds U fuel s b j s' p ->
  h_b (s_h s) !! j = Some (BEmpty y) -> labelled s' p j (Some ["0"]).
Proof. exact @LengthMain.empty_length. Qed.
Print Assumptions C58_empty.

(** A Reader with ReadAt that serves the bytes [d] until it is closed, as in
    [C24_readerat]: the Body [i] is made of it and [j] is this Body or a copy,
    wherever it has been read or sought to. *)
Theorem C58_readerat : forall (V : Type) (U : uenv V) (fuel : nat) (r : rid) (live : V -> Prop) (d : bytes) (early : bool),
  serves_at (u_env U) r live d early -> cp_readerat (ev_caps (u_env U) r) = true -> calm U (fun v v' => live v -> live v') ->
  forall v s1 i cs s os (D : Z) b j s' p, live v -> wrapped_in U fuel r v s1 i cs s os -> announced U fuel s1 i D -> 0 <= D <= zlen d ->
  holds U fuel s j r -> builds U fuel s b j s' p ->
  exists R, labelled s' p j (Some (decimal (zlen R))) /\
    forall cs2 s2 os2, wrapped_in U fuel r v s1 i cs2 s2 os2 -> h_b (s_h s2) !! j = h_b (s_h s') !! j -> delivers U fuel False s2 j R.
Proof. exact @LengthMain.readerat_length. Qed.
Print Assumptions C58_readerat.

(** The same for a Reader with Seek but without ReadAt. *)
Theorem C58_seeker : forall (V : Type) (U : uenv V) (fuel : nat) (r : rid) (live : V -> Prop) (d : bytes) (early : bool),
  serves_seek (u_env U) r live d early -> cp_readerat (ev_caps (u_env U) r) = false -> cp_seeker (ev_caps (u_env U) r) = true ->
  calm U (fun v v' => live v -> live v') ->
  forall v s1 i cs s os (D : Z) b j s' p, live v -> wrapped_in U fuel r v s1 i cs s os -> announced U fuel s1 i D -> 0 <= D <= zlen d ->
  holds U fuel s j r -> builds U fuel s b j s' p ->
  exists R, labelled s' p j (Some (decimal (zlen R))) /\
    forall cs2 s2 os2, wrapped_in U fuel r v s1 i cs2 s2 os2 -> h_b (s_h s2) !! j = h_b (s_h s') !! j -> delivers U fuel False s2 j R.
Proof. exact @LengthMain.seeker_length. Qed.
Print Assumptions C58_seeker.

(** A stream of at least the declared number [D] of bytes.  Without a declared
    length there is a Content-Length only if the end of the stream has been met, and
    then it is right as well. *)
Theorem C58_stream : forall (V : Type) (U : uenv V) (fuel : nat) (r : rid) (gp : V -> nat) (d : bytes),
  streams (u_env U) r gp d EOF -> calm U (fun v v' => gp v' = gp v) ->
  forall v s1 i cs s os (D : Z) b j s' p, gp v = 0%nat -> wrapped_in U fuel r v s1 i cs s os -> announced U fuel s1 i D ->
  (cp_readerat (ev_caps (u_env U) r) || cp_seeker (ev_caps (u_env U) r)) && (0 <=? D) = false -> D <= zlen d ->
  holds U fuel s j r -> builds U fuel s b j s' p ->
  exists R, (labelled s' p j (Some (decimal (zlen R))) \/ D < 0 /\ labelled s' p j None) /\
    forall cs2 s2 os2, wrapped_in U fuel r v s1 i cs2 s2 os2 -> h_b (s_h s2) !! j = h_b (s_h s') !! j -> delivers U fuel True s2 j R.
Proof. exact @LengthMain.streaming_length. Qed.
Print Assumptions C58_stream.

(** False of the code without these assumptions: the header is never corrected.  A
    source shorter than declared: 11 bytes are sent under a Content-Length of 20, and
    Serve reports no error. *)
Theorem C58_refuted : exists (U : uenv (nat * bytes)) s s',
  runs_to U 99 s /\ builds U 99 s 0 1 s' 0 /\ labelled s' 0 1 (Some ["20"]) /\ accepting U 0 snd /\ target s' 1 = Some (None, 0%nat) /\
  (texec U 99 (TDo (RServe 0 1)) s').2 = ORet (YErr None) /\ (v_v (world (texec U 99 (TDo (RServe 0 1)) s').1)).2 = bs "hello world".
Proof. exact LengthWitness.short_source. Qed.
Print Assumptions C58_refuted.

(** ** Examples *)
(** After one Read of 2 bytes. *)
Example C58_example_memory :
  let U := saloon (lone (hello plain 3)) no_caps in
  let cs := TDo (RB (NewString "hello world")) :: TDo (RB (Call 1 (Read (buf 2)))) :: builder_of 1 in
  let s := after U 99 (open_saloon 0%nat 1) cs in
  let s' := (texec U 99 (TDo (RBuild 0)) s).1 in
  builds U 99 s 0 1 s' 0 /\ runs_to U 99 s /\ runs_to U 99 s' /\
  h_b (s_h s) !! 1%nat = Some (BBytes {| by_data := bs "hello world"; by_offset := 2; by_eof := false; by_closed := false |}) /\
  labelled s' 0 1 (Some ["9"]) /\ decimal (zlen (bs "llo world")) = ["9"] /\
  (v_v (world (texec U 99 (TDo (RServe 0 1)) s').1)).2 = bs "llo world".
Proof.
  cbv zeta. split; [apply check_builds; [apply saloon_reaches|by vm_compute..]|]. split.
  { split; [apply saloon_go, lone_go|]. eexists _, _, _, _, _, _. split; [|split; [apply surjective_pairing|split; vm_compute; done]]. repeat constructor; try done. }
  split.
  { split; [apply saloon_go, lone_go|]. exists (0%nat, []), 1%nat, [∅], [], (TDo (RB (NewString "hello world")) :: TDo (RB (Call 1 (Read (buf 2)))) :: builder_of 1 ++ [TDo (RBuild 0)]).
    eexists. split; [repeat constructor; done|]. split; [vm_compute; reflexivity|]. split; vm_compute; done. }
  split; [by vm_compute|]. split; [apply check_labelled; by vm_compute|]. split; by vm_compute.
Qed.
Example C58_example_empty :
  let U := saloon (lone (hello plain 3)) no_caps in
  let s := after U 99 (open_saloon 0%nat 1) (TDo (RB NewEmpty) :: builder_of 1) in
  builds U 99 s 0 1 (texec U 99 (TDo (RBuild 0)) s).1 0 /\ h_b (s_h s) !! 1%nat = Some (BEmpty {| em_eof := false; em_closed := false |}).
Proof. cbv zeta. split; [apply check_builds; [apply saloon_reaches|by vm_compute..]|by vm_compute]. Qed.
(** The first nine bytes of a Reader with ReadAt, in a copy that has been read to
    its end and sought back. *)
Example C58_example_readerat :
  let U := saloon (archive (bs "hello world") random_access true None) all_caps in
  let s1 := after U 99 (open_saloon (false, 0%nat) 1) [TDo (RB (NewReaderLen 0 9))] in
  let cs := TDo (RB (Call 1 Copy)) :: TDo (RB (Call 2 (Read (buf 20)))) :: TDo (RB (Call 2 (Seek (-3) 1))) :: builder_of 2 in
  let s := after U 99 s1 cs in
  let s' := (texec U 99 (TDo (RBuild 0)) s).1 in
  serves_at (u_env U) 0 (fun v => alive v.1) (bs "hello world") true /\ calm U (fun v v' => alive v.1 -> alive v'.1) /\
  (exists os, wrapped_in U 99 0 ((false, 0%nat), []) s1 1 cs s os) /\ announced U 99 s1 1 9 /\ holds U 99 s 2 0 /\ builds U 99 s 0 2 s' 0 /\
  (exists os, wrapped_in U 99 0 ((false, 0%nat), []) s1 1 (cs ++ [TDo (RBuild 0)]) s' os) /\
  labelled s' 0 2 (Some ["3"]) /\
  (texec U 99 (TDo (RServe 0 1)) s').2 = ORet (YErr None) /\ (v_v (world (texec U 99 (TDo (RServe 0 1)) s').1)).2 = bs "wor".
Proof.
  cbv zeta. split; [apply saloon_serves_at, archive_serves_at|]. split; [apply (saloon_calm _ _ (fun w w' => alive w -> alive w')); auto|]. split.
  { eexists. split; [apply saloon_go, archive_go|]. exists 1%nat, [∅], [], [], [], (open_saloon (false, 0%nat) 1), (NewReaderLen 0 9).
    split; [repeat constructor; done|]. split; [repeat constructor; intros [|[? ?]]; congruence|]. split; [done|]. split; [right; by eexists|].
    split; [done|]. split; [vm_compute; reflexivity|]. split; [apply surjective_pairing|]. split; vm_compute; done. }
  split; [vm_compute; reflexivity|]. split; [eexists; vm_compute; reflexivity|].
  split; [apply check_builds; [apply saloon_reaches_next; by vm_compute|by vm_compute..]|]. split.
  { eexists. split; [apply saloon_go, archive_go|]. exists 1%nat, [∅], [], [], [], (open_saloon (false, 0%nat) 1), (NewReaderLen 0 9).
    split; [repeat constructor; done|]. split; [repeat constructor; intros [|[? ?]]; congruence|]. split; [done|]. split; [right; by eexists|].
    split; [done|]. split; [vm_compute; reflexivity|]. split; [vm_compute; reflexivity|]. split; vm_compute; done. }
  split; [apply check_labelled; by vm_compute|]. split; by vm_compute.
Qed.
(** The same with Seek only; the copy has been read to its end. *)
Example C58_example_seeker :
  let U := saloon (archive (bs "hello world") seekable false None) no_caps in
  let s1 := after U 99 (open_saloon (false, 0%nat) 1) [TDo (RB (NewReaderLen 0 9))] in
  let cs := TDo (RB (Call 1 Copy)) :: TDo (RB (Call 2 (Read (buf 20)))) :: builder_of 2 in
  let s := after U 99 s1 cs in
  let s' := (texec U 99 (TDo (RBuild 0)) s).1 in
  serves_seek (u_env U) 0 (fun v => alive v.1) (bs "hello world") false /\
  (exists os, wrapped_in U 99 0 ((false, 0%nat), []) s1 1 cs s os) /\ announced U 99 s1 1 9 /\ holds U 99 s 2 0 /\ builds U 99 s 0 2 s' 0 /\
  labelled s' 0 2 (Some ["0"]) /\ (v_v (world (texec U 99 (TDo (RServe 0 1)) s').1)).2 = [].
Proof.
  cbv zeta. split; [apply saloon_serves_seek, archive_serves_seek; vm_compute; done|]. split.
  { eexists. split; [apply saloon_go, archive_go|]. exists 1%nat, [∅], [], [], [], (open_saloon (false, 0%nat) 1), (NewReaderLen 0 9).
    split; [repeat constructor; done|]. split; [repeat constructor; intros [|[? ?]]; congruence|]. split; [done|]. split; [right; by eexists|].
    split; [done|]. split; [vm_compute; reflexivity|]. split; [apply surjective_pairing|]. split; vm_compute; done. }
  split; [vm_compute; reflexivity|]. split; [eexists; vm_compute; reflexivity|].
  split; [apply check_builds; [apply saloon_reaches_next; by vm_compute|by vm_compute..]|].
  split; [apply check_labelled; by vm_compute|by vm_compute].
Qed.
(** A stream of unknown length, which a copy has read to its end: now the length is
    known. *)
Example C58_example_stream :
  let U := saloon (lone (hello plain 3)) no_caps in
  let s1 := after U 99 (open_saloon 0%nat 1) [TDo (RB (NewReader 0))] in
  let cs := TDo (RB (Call 1 (Read (buf 4)))) :: TDo (RB (Call 1 Copy)) :: TDo (RB (Call 2 (Read (buf 20)))) :: builder_of 1 in
  let s := after U 99 s1 cs in
  let s' := (texec U 99 (TDo (RBuild 0)) s).1 in
  streams (u_env U) 0 (fun v => Nat.min v.1 11) (bs "hello world") EOF /\ calm U (fun v v' => Nat.min v'.1 11 = Nat.min v.1 11) /\
  (exists os, wrapped_in U 99 0 (0%nat, []) s1 1 cs s os) /\ announced U 99 s1 1 (-1) /\ holds U 99 s 1 0 /\ builds U 99 s 0 1 s' 0 /\
  labelled s' 0 1 (Some ["7"]) /\
  (texec U 99 (TDo (RServe 0 1)) s').2 = ORet (YErr None) /\ (v_v (world (texec U 99 (TDo (RServe 0 1)) s').1)).2 = bs "o world".
Proof.
  cbv zeta. split; [apply (saloon_streams (lone (hello plain 3)) no_caps 0 (fun w => Nat.min w 11)), (lone_streams (hello plain 3)); cbn; lia|].
  split; [apply (saloon_calm _ _ (fun w w' => Nat.min w' 11 = Nat.min w 11)); auto|]. split.
  { eexists. split; [apply saloon_go, lone_go|]. exists 1%nat, [∅], [], [], [], (open_saloon 0%nat 1), (NewReader 0).
    split; [repeat constructor; done|]. split; [repeat constructor; intros [|[? ?]]; congruence|]. split; [done|]. split; [by left|].
    split; [done|]. split; [vm_compute; reflexivity|]. split; [apply surjective_pairing|]. split; vm_compute; done. }
  split; [vm_compute; reflexivity|]. split; [eexists; vm_compute; reflexivity|].
  split; [apply check_builds; [apply saloon_reaches_next; by vm_compute|by vm_compute..]|].
  split; [apply check_labelled; by vm_compute|]. split; by vm_compute.
Qed.
