(** * C59: a client that fails never gets a wrong byte, and Serve says so *)
From stdpp Require Import gmap.
From Verif Require Import SafeSpec WitnessServe WitnessSource ShortWitness LengthWitness SafeWitness.
From Verif Require Safe SafeFault.

(** C24 is about clients that accept everything.  Here the client may do anything:
    accept too little, fail, panic, and be any ResponseWriter or Writer.
    [safely U fuel checked all s i R]: if a Response with body [i] is served, what the
    client is given is the beginning of [R], in order and with nothing left out; no
    byte follows a Write that failed; and if Serve returns nil, every Write took
    everything, and all of [R] was written if [all] holds. *)

(** Bytes in memory, in any state whatever.  Here the client must keep to the rule of
    io.Writer ([C59_refuted]). *)
Theorem C59_memory : forall (V : Type) (U : uenv V) (fuel : nat) s i b,
  h_b (s_h s) !! i = Some (BBytes b) -> safely U fuel False True s i (left_in b).
Proof. exact @Safe.bytes_safely. Qed.
Print Assumptions C59_memory.

(** The empty Body, and a Body that was closed before it was copied. *)
Theorem C59_empty : forall (V : Type) (U : uenv V) (fuel : nat) s i b,
  h_b (s_h s) !! i = Some b -> match b with BClosed | BEmpty _ => True | _ => False end -> safely U fuel True True s i [].
Proof. exact @Safe.writerto_safely. Qed.
Print Assumptions C59_empty.

(** A Reader with ReadAt that serves [d].  The Body [j] is the one made of it or a
    copy, stands at [n] and announces [z] more bytes. *)
Theorem C59_readerat : forall (V : Type) (U : uenv V) (fuel : nat) r (live : V -> Prop) d early,
  serves_at (u_env U) r live d early -> cp_readerat (ev_caps (u_env U) r) = true -> calm U (fun v v' => live v -> live v') ->
  forall v s1 i cs s2 os (D : nat) j n z, live v -> wrapped_in U fuel r v s1 i cs s2 os -> announced U fuel s1 i (Z.of_nat D) -> (D <= length d)%nat ->
  holds U fuel s2 j r -> tells U fuel s2 j n -> announced U fuel s2 j z -> safely U fuel True True s2 j (take (Z.to_nat z) (drop (Z.to_nat n) d)).
Proof. exact @SafeFault.safe_readerat. Qed.
Print Assumptions C59_readerat.

Theorem C59_seeker : forall (V : Type) (U : uenv V) (fuel : nat) r (live : V -> Prop) d early,
  serves_seek (u_env U) r live d early -> cp_readerat (ev_caps (u_env U) r) = false -> cp_seeker (ev_caps (u_env U) r) = true -> calm U (fun v v' => live v -> live v') ->
  forall v s1 i cs s2 os (D : nat) j n z, live v -> wrapped_in U fuel r v s1 i cs s2 os -> announced U fuel s1 i (Z.of_nat D) -> (D <= length d)%nat ->
  holds U fuel s2 j r -> tells U fuel s2 j n -> announced U fuel s2 j z -> safely U fuel True True s2 j (take (Z.to_nat z) (drop (Z.to_nat n) d)).
Proof. exact @SafeFault.safe_seeker. Qed.
Print Assumptions C59_seeker.

(** A stream that delivers [d] and then ends with any error [e], EOF or not.  Serve
    returns nil only if everything declared, or everything there is, was written. *)
Theorem C59_stream : forall (V : Type) (U : uenv V) (fuel : nat) r (gp : V -> nat) d e,
  streams (u_env U) r gp d e -> calm U (fun v v' => gp v' = gp v) ->
  forall v s1 i cs s2 os (D : Z) j b, gp v = 0%nat -> wrapped_in U fuel r v s1 i cs s2 os -> announced U fuel s1 i D ->
  (cp_readerat (ev_caps (u_env U) r) || cp_seeker (ev_caps (u_env U) r)) && (0 <=? D) = false -> holds U fuel s2 j r -> h_b (s_h s2) !! j = Some (BBuffered b) ->
  safely U fuel True True s2 j (drop (Z.to_nat (bb_offset b)) (cut D d)).
Proof. exact @SafeFault.safe_stream. Qed.
Print Assumptions C59_stream.

(** Sources that fail or give too few bytes at any time, as in [C57_readerat_faults],
    whatever length [D] was announced. *)
Theorem C59_readerat_faults : forall (V : Type) (U : uenv V) (fuel : nat) r (live : V -> Prop) d,
  truthful_at (u_env U) r live d -> cp_readerat (ev_caps (u_env U) r) = true -> calm U (fun v v' => live v -> live v') ->
  forall v s1 i cs s2 os (D : nat) j n z, live v -> wrapped_in U fuel r v s1 i cs s2 os -> announced U fuel s1 i (Z.of_nat D) ->
  holds U fuel s2 j r -> tells U fuel s2 j n -> announced U fuel s2 j z -> safely U fuel True False s2 j (take (Z.to_nat z) (drop (Z.to_nat n) d)).
Proof. exact @SafeFault.safe_readerat_faults. Qed.
Print Assumptions C59_readerat_faults.

Theorem C59_seeker_faults : forall (V : Type) (U : uenv V) (fuel : nat) r (live : V -> Prop) d,
  truthful_seek (u_env U) r live d -> cp_readerat (ev_caps (u_env U) r) = false -> cp_seeker (ev_caps (u_env U) r) = true -> calm U (fun v v' => live v -> live v') ->
  forall v s1 i cs s2 os (D : nat) j n z, live v -> wrapped_in U fuel r v s1 i cs s2 os -> announced U fuel s1 i (Z.of_nat D) ->
  holds U fuel s2 j r -> tells U fuel s2 j n -> announced U fuel s2 j z -> safely U fuel True False s2 j (take (Z.to_nat z) (drop (Z.to_nat n) d)).
Proof. exact @SafeFault.safe_seeker_faults. Qed.
Print Assumptions C59_seeker_faults.

(** Sources that do not fail but are shorter than announced. *)
Theorem C59_readerat_short : forall (V : Type) (U : uenv V) (fuel : nat) r (live : V -> Prop) d early,
  ends_at (u_env U) r live d early -> cp_readerat (ev_caps (u_env U) r) = true -> calm U (fun v v' => live v -> live v') ->
  forall v s1 i cs s2 os (D : nat) j n z, live v -> wrapped_in U fuel r v s1 i cs s2 os -> announced U fuel s1 i (Z.of_nat D) -> (length d <= D)%nat ->
  holds U fuel s2 j r -> tells U fuel s2 j n -> announced U fuel s2 j z -> safely U fuel True True s2 j (take (Z.to_nat z) (drop (Z.to_nat n) d)).
Proof. exact @SafeFault.safe_readerat_short. Qed.
Print Assumptions C59_readerat_short.

Theorem C59_seeker_short : forall (V : Type) (U : uenv V) (fuel : nat) r (live : V -> Prop) d early,
  ends_seek (u_env U) r live d early -> cp_readerat (ev_caps (u_env U) r) = false -> cp_seeker (ev_caps (u_env U) r) = true -> calm U (fun v v' => live v -> live v') ->
  forall v s1 i cs s2 os (D : nat) j n z, live v -> wrapped_in U fuel r v s1 i cs s2 os -> announced U fuel s1 i (Z.of_nat D) -> (length d <= D)%nat ->
  holds U fuel s2 j r -> tells U fuel s2 j n -> announced U fuel s2 j z -> safely U fuel True True s2 j (take (Z.to_nat z) (drop (Z.to_nat n) d)).
Proof. exact @SafeFault.safe_seeker_short. Qed.
Print Assumptions C59_seeker_short.

(** False of the code without the rule of io.Writer.  bytesBody.WriteTo believes a
    Write that accepts four bytes of nine without an error, and so does io.Copy:
    Serve returns nil and five bytes are lost.  With the other Bodies io.Copy would
    have returned ErrShortWrite. *)
Theorem C59_refuted : exists (U : uenv (nat * bytes)) s s' new b,
  h_b (s_h s) !! 1%nat = Some (BBytes b) /\ left_in b = bs "llo world" /\ target s 1 = Some (None, 0%nat) /\
  serving U 99 s 0 1 s' (ORet (YErr None)) new /\ client_writes new = [(bs "llo world", inl (4, None))].
Proof. exact SafeWitness.short_write. Qed.
Print Assumptions C59_refuted.

(** ** Examples *)
(** The client has room for 4 bytes. *)
Example C59_example_memory :
  let U := bounded (lone (hello plain 3)) no_caps 4 (Some (External 5)) in
  let s := after U 99 (open_saloon 0%nat 1) (TDo (RB (NewString "hello world")) :: TDo (RB (Call 1 (Read (buf 2)))) :: response_of 1) in
  fair_writer U 0 /\ h_b (s_h s) !! 1%nat = Some (BBytes {| by_data := bs "hello world"; by_offset := 2; by_eof := false; by_closed := false |}) /\
  target s 1 = Some (None, 0%nat) /\ served_on U s = (ORet (YErr (Some (External 5))), [(bs "llo world", inl (4, Some (External 5)))]).
Proof. cbv zeta. split; [apply bounded_fair|]. split; [by vm_compute|]. split; by vm_compute. Qed.
(** emptyBody.WriteTo reports EOF, and Serve hands it on ([C24_empty]). *)
Example C59_example_empty :
  let U := bounded (lone (hello plain 3)) no_caps 4 None in
  let s := after U 99 (open_saloon 0%nat 1) (TDo (RB NewEmpty) :: response_of 1) in
  h_b (s_h s) !! 1%nat = Some (BEmpty {| em_eof := false; em_closed := false |}) /\ served_on U s = (ORet (YErr (Some EOF)), []).
Proof. cbv zeta. split; by vm_compute. Qed.
(** A copy of a Body of nine bytes that stands at 3, a client that takes 4 bytes and
    says nothing: here the loss is noticed. *)
Example C59_example_readerat :
  let U := bounded (archive (bs "hello world") random_access true None) no_caps 4 None in
  let s1 := after U 99 (open_saloon (false, 0%nat) 1) [TDo (RB (NewReaderLen 0 9))] in
  let cs := TDo (RB (Call 1 Copy)) :: TDo (RB (Call 2 (Read (buf 3)))) :: response_of 2 in
  let s := after U 99 s1 cs in
  serves_at (u_env U) 0 (fun v => alive v.1) (bs "hello world") true /\ cp_readerat (ev_caps (u_env U) 0) = true /\ calm U (fun v v' => alive v.1 -> alive v'.1) /\
  (exists os, wrapped_in U 99 0 ((false, 0%nat), []) s1 1 cs s os) /\ announced U 99 s1 1 (Z.of_nat 9) /\ holds U 99 s 2 0 /\ tells U 99 s 2 3 /\ announced U 99 s 2 6 /\
  served_on U s = (ORet (YErr (Some ErrShortWrite)), [(bs "lo wor", inl (4, None))]).
Proof.
  cbv zeta. split; [apply bounded_serves_at, archive_serves_at|]. split; [done|]. split; [apply (bounded_calm _ _ _ _ (fun w w' => alive w -> alive w')); auto|]. split.
  { eexists. split; [apply bounded_go, archive_go|]. exists 1%nat, [∅], [], [], [], (open_saloon (false, 0%nat) 1), (NewReaderLen 0 9).
    split; [repeat constructor; done|]. split; [repeat constructor; intros [|[? ?]]; congruence|]. split; [done|]. split; [right; by eexists|].
    split; [done|]. split; [vm_compute; reflexivity|]. split; [apply surjective_pairing|]. split; vm_compute; done. }
  split; [vm_compute; reflexivity|]. split; [eexists; vm_compute; reflexivity|]. split; [eexists; vm_compute; reflexivity|]. split; vm_compute; reflexivity.
Qed.
(** The same with Seek only, and room enough. *)
Example C59_example_seeker :
  let U := bounded (archive (bs "hello world") seekable false None) no_caps 40 (Some (External 5)) in
  let s1 := after U 99 (open_saloon (false, 0%nat) 1) [TDo (RB (NewReaderLen 0 9))] in
  let cs := TDo (RB (Call 1 Copy)) :: TDo (RB (Call 2 (Read (buf 3)))) :: response_of 2 in
  let s := after U 99 s1 cs in
  serves_seek (u_env U) 0 (fun v => alive v.1) (bs "hello world") false /\ calm U (fun v v' => alive v.1 -> alive v'.1) /\
  (exists os, wrapped_in U 99 0 ((false, 0%nat), []) s1 1 cs s os) /\ announced U 99 s1 1 (Z.of_nat 9) /\ holds U 99 s 2 0 /\ tells U 99 s 2 3 /\ announced U 99 s 2 6 /\
  served_on U s = (ORet (YErr None), [(bs "lo wor", inl (6, None))]).
Proof.
  cbv zeta. split; [apply bounded_serves_seek, archive_serves_seek; vm_compute; done|]. split; [apply (bounded_calm _ _ _ _ (fun w w' => alive w -> alive w')); auto|]. split.
  { eexists. split; [apply bounded_go, archive_go|]. exists 1%nat, [∅], [], [], [], (open_saloon (false, 0%nat) 1), (NewReaderLen 0 9).
    split; [repeat constructor; done|]. split; [repeat constructor; intros [|[? ?]]; congruence|]. split; [done|]. split; [right; by eexists|].
    split; [done|]. split; [vm_compute; reflexivity|]. split; [apply surjective_pairing|]. split; vm_compute; done. }
  split; [vm_compute; reflexivity|]. split; [eexists; vm_compute; reflexivity|]. split; [eexists; vm_compute; reflexivity|]. split; vm_compute; reflexivity.
Qed.
(** A stream that fails after eleven bytes. *)
Example C59_example_stream :
  let sr := {| so_data := bs "hello world"; so_caps := plain; so_chunk := 3; so_last := External 7; so_close := None |} in
  let U := bounded (lone sr) no_caps 40 (Some (External 5)) in
  let s1 := after U 99 (open_saloon 0%nat 1) [TDo (RB (NewReader 0))] in
  let cs := TDo (RB (Call 1 Copy)) :: TDo (RB (Call 2 (Read (buf 3)))) :: response_of 2 in
  let s := after U 99 s1 cs in
  streams (u_env U) 0 (fun v => Nat.min v.1 11) (bs "hello world") (External 7) /\ calm U (fun v v' => Nat.min v'.1 11 = Nat.min v.1 11) /\
  (exists os, wrapped_in U 99 0 (0%nat, []) s1 1 cs s os) /\ announced U 99 s1 1 (-1) /\ holds U 99 s 2 0 /\
  h_b (s_h s) !! 2%nat = Some (BBuffered {| bb_common := Some 0%nat; bb_offset := 3; bb_eof := false; bb_closed := false |}) /\
  served_on U s = (ORet (YErr (Some (External 7))), [(bs "lo world", inl (8, None))]).
Proof.
  cbv zeta. split; [apply (bounded_streams (lone _) no_caps 40 (Some (External 5)) 0 (fun w => Nat.min w 11)), (lone_streams {| so_data := bs "hello world"; so_caps := plain; so_chunk := 3; so_last := External 7; so_close := None |}); cbn; lia|].
  split; [apply (bounded_calm _ _ _ _ (fun w w' => Nat.min w' 11 = Nat.min w 11)); auto|]. split.
  { eexists. split; [apply bounded_go, lone_go|]. exists 1%nat, [∅], [], [], [], (open_saloon 0%nat 1), (NewReader 0).
    split; [repeat constructor; done|]. split; [repeat constructor; intros [|[? ?]]; congruence|]. split; [done|]. split; [by left|].
    split; [done|]. split; [vm_compute; reflexivity|]. split; [apply surjective_pairing|]. split; vm_compute; done. }
  split; [vm_compute; reflexivity|]. split; [eexists; vm_compute; reflexivity|]. split; vm_compute; reflexivity.
Qed.
(** Every third ReadAt fails after two bytes.  The first Serve of a copy meets this, gives
    the client the two bytes and reports the error. *)
Example C59_example_readerat_faults :
  let U := bounded (faulty (bs "hello world")) no_caps 40 (Some (External 5)) in
  let s1 := after U 99 (open_saloon 0%nat 1) [TDo (RB (NewReaderLen 0 20))] in
  let cs := TDo (RB (Call 1 Copy)) :: TDo (RB (Call 2 (Read (buf 3)))) :: response_of 2 in
  let s := after U 99 s1 cs in
  truthful_at (u_env U) 0 (fun v => True) (bs "hello world") /\ cp_readerat (ev_caps (u_env U) 0) = true /\ calm U (fun v v' => True -> True) /\
  (exists os, wrapped_in U 99 0 (0%nat, []) s1 1 cs s os) /\ announced U 99 s1 1 (Z.of_nat 20) /\ holds U 99 s 2 0 /\ tells U 99 s 2 3 /\ announced U 99 s 2 17 /\
  served_on U s = (ORet (YErr (Some (External 9))), [(bs "lo", inl (2, None))]).
Proof.
  cbv zeta. split; [apply (bounded_truthful_at _ _ _ _ _ (fun _ => True)), faulty_truthful|]. split; [done|]. split; [apply (bounded_calm _ _ _ _ (fun w w' => True -> True)); auto|]. split.
  { eexists. split; [apply bounded_go, faulty_go|]. exists 1%nat, [∅], [], [], [], (open_saloon 0%nat 1), (NewReaderLen 0 20).
    split; [repeat constructor; done|]. split; [repeat constructor; intros [|[? ?]]; congruence|]. split; [done|]. split; [right; by eexists|].
    split; [done|]. split; [vm_compute; reflexivity|]. split; [apply surjective_pairing|]. split; vm_compute; done. }
  split; [vm_compute; reflexivity|]. split; [eexists; vm_compute; reflexivity|]. split; [eexists; vm_compute; reflexivity|]. split; vm_compute; reflexivity.
Qed.
(** A Read that fails once.  Both handles have believed in no bytes since, so that
    Serve of the copy writes nothing and returns nil. *)
Example C59_example_seeker_faults :
  let U := bounded (hiccup (bs "hello world")) no_caps 40 (Some (External 5)) in
  let s1 := after U 99 (open_saloon (0, 0)%nat 1) [TDo (RB (NewReaderLen 0 8))] in
  let cs := TDo (RB (Call 1 Copy)) :: TDo (RB (Call 1 (Read (buf 3)))) :: response_of 2 in
  let s := after U 99 s1 cs in
  truthful_seek (u_env U) 0 (fun v => True) (bs "hello world") /\ calm U (fun v v' => True -> True) /\
  (exists os, wrapped_in U 99 0 ((0, 0)%nat, []) s1 1 cs s os) /\ announced U 99 s1 1 (Z.of_nat 8) /\ holds U 99 s 2 0 /\ tells U 99 s 2 0 /\ announced U 99 s 2 0 /\
  served_on U s = (ORet (YErr None), []).
Proof.
  cbv zeta. split; [apply (bounded_truthful_seek _ _ _ _ _ (fun _ => True)), hiccup_truthful|]. split; [apply (bounded_calm _ _ _ _ (fun w w' => True -> True)); auto|]. split.
  { eexists. split; [apply bounded_go, hiccup_rules|]. exists 1%nat, [∅], [], [], [], (open_saloon (0, 0)%nat 1), (NewReaderLen 0 8).
    split; [repeat constructor; done|]. split; [repeat constructor; intros [|[? ?]]; congruence|]. split; [done|]. split; [right; by eexists|].
    split; [done|]. split; [vm_compute; reflexivity|]. split; [apply surjective_pairing|]. split; vm_compute; done. }
  split; [vm_compute; reflexivity|]. split; [eexists; vm_compute; reflexivity|]. split; [eexists; vm_compute; reflexivity|]. split; vm_compute; reflexivity.
Qed.
(** Twenty bytes announced of eleven; the Body has been sought to 6. *)
Example C59_example_readerat_short :
  let U := bounded (archive (bs "hello world") random_access false None) no_caps 40 (Some (External 5)) in
  let s1 := after U 99 (open_saloon (false, 0%nat) 1) [TDo (RB (NewReaderLen 0 20))] in
  let cs := TDo (RB (Call 1 (Seek 6 0))) :: response_of 1 in
  let s := after U 99 s1 cs in
  ends_at (u_env U) 0 (fun v => alive v.1) (bs "hello world") false /\ calm U (fun v v' => alive v.1 -> alive v'.1) /\
  (exists os, wrapped_in U 99 0 ((false, 0%nat), []) s1 1 cs s os) /\ announced U 99 s1 1 (Z.of_nat 20) /\ holds U 99 s 1 0 /\ tells U 99 s 1 6 /\ announced U 99 s 1 14 /\
  served_on U s = (ORet (YErr None), [(bs "world", inl (5, None))]).
Proof.
  cbv zeta. split; [apply bounded_ends_at, archive_ends_at|]. split; [apply (bounded_calm _ _ _ _ (fun w w' => alive w -> alive w')); auto|]. split.
  { eexists. split; [apply bounded_go, archive_go|]. exists 1%nat, [∅], [], [], [], (open_saloon (false, 0%nat) 1), (NewReaderLen 0 20).
    split; [repeat constructor; done|]. split; [repeat constructor; intros [|[? ?]]; congruence|]. split; [done|]. split; [right; by eexists|].
    split; [done|]. split; [vm_compute; reflexivity|]. split; [apply surjective_pairing|]. split; vm_compute; done. }
  split; [vm_compute; reflexivity|]. split; [eexists; vm_compute; reflexivity|]. split; [eexists; vm_compute; reflexivity|]. split; vm_compute; reflexivity.
Qed.
Example C59_example_seeker_short :
  let U := bounded (archive (bs "hello world") seekable false None) no_caps 3 (Some (External 5)) in
  let s1 := after U 99 (open_saloon (false, 0%nat) 1) [TDo (RB (NewReaderLen 0 20))] in
  let cs := TDo (RB (Call 1 (Seek 6 0))) :: response_of 1 in
  let s := after U 99 s1 cs in
  ends_seek (u_env U) 0 (fun v => alive v.1) (bs "hello world") false /\ calm U (fun v v' => alive v.1 -> alive v'.1) /\
  (exists os, wrapped_in U 99 0 ((false, 0%nat), []) s1 1 cs s os) /\ announced U 99 s1 1 (Z.of_nat 20) /\ holds U 99 s 1 0 /\ tells U 99 s 1 6 /\ announced U 99 s 1 14 /\
  served_on U s = (ORet (YErr (Some (External 5))), [(bs "world", inl (3, Some (External 5)))]).
Proof.
  cbv zeta. split; [apply bounded_ends_seek, archive_ends_seek; vm_compute; done|]. split; [apply (bounded_calm _ _ _ _ (fun w w' => alive w -> alive w')); auto|]. split.
  { eexists. split; [apply bounded_go, archive_go|]. exists 1%nat, [∅], [], [], [], (open_saloon (false, 0%nat) 1), (NewReaderLen 0 20).
    split; [repeat constructor; done|]. split; [repeat constructor; intros [|[? ?]]; congruence|]. split; [done|]. split; [right; by eexists|].
    split; [done|]. split; [vm_compute; reflexivity|]. split; [apply surjective_pairing|]. split; vm_compute; done. }
  split; [vm_compute; reflexivity|]. split; [eexists; vm_compute; reflexivity|]. split; [eexists; vm_compute; reflexivity|]. split; vm_compute; reflexivity.
Qed.
