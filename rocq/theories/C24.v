(** * C24: Serve delivers the whole body *)
From stdpp Require Import gmap.
From Verif Require Import DeliverSpec WitnessServe.
From Verif Require DeliverMain.

(** All theorems speak of [delivers]: every Serve of a Response with this body on a
    ResponseWriter, or on a Writer wrapping one, that accepts everything sends
    exactly the bytes [R] that reading the body to its end would give, and returns
    nil (or the error of Close).  The body of a HEAD or 204 response is not sent.
    The Readers do not panic here ([go_uenv]).  Which headers are sent, and when, is
    in C26; whether the body is closed is in C25. *)

(** Bytes in memory, in the middle of any program. *)
Theorem C24_memory : forall (V : Type) (U : uenv V) (fuel : nat), forall s j b,
  runs_to U fuel s -> h_b (s_h s) !! j = Some (BBytes b) -> by_closed b = false ->
  delivers U fuel False s j (if by_eof b then [] else drop (Z.to_nat (by_offset b)) (by_data b)).
Proof. exact (fun V U fuel s j b => DeliverMain.memory U fuel (delivers U fuel) s j b (DeliverMain.enough_delivers U fuel)). Qed.
Print Assumptions C24_memory.

(** A Reader with ReadAt that serves the bytes [d] until it is closed.  The program
    makes the Body [i] of it, after doing anything else; [cs] is everything the
    program does afterwards; [j] is this Body or a copy of it that is still open.
    What is delivered is the rest of the first [D] bytes of [d]. *)
Theorem C24_readerat : forall (V : Type) (U : uenv V) (fuel : nat) (r : rid) (live : V -> Prop) (d : bytes) (early : bool),
  serves_at (u_env U) r live d early -> cp_readerat (ev_caps (u_env U) r) = true -> calm U (fun v v' => live v -> live v') ->
  forall v s1 i cs s2 os (D : Z) j, live v -> wrapped_in U fuel r v s1 i cs s2 os -> announced U fuel s1 i D -> 0 <= D <= zlen d -> holds U fuel s2 j r ->
  exists P R, take (Z.to_nat D) d = P ++ R /\ delivers U fuel False s2 j R.
Proof. exact (fun V U fuel => DeliverMain.at_any U fuel (delivers U fuel) (DeliverMain.enough_delivers U fuel)). Qed.
Print Assumptions C24_readerat.
(** All of them, if the Body has not been used in the meantime. *)
Theorem C24_readerat_whole : forall (V : Type) (U : uenv V) (fuel : nat) (r : rid) (live : V -> Prop) (d : bytes) (early : bool),
  serves_at (u_env U) r live d early -> cp_readerat (ev_caps (u_env U) r) = true -> calm U (fun v v' => live v -> live v') ->
  forall v s1 i cs s2 os (D : Z), live v -> wrapped_in U fuel r v s1 i cs s2 os -> announced U fuel s1 i D -> 0 <= D <= zlen d ->
  h_b (s_h s2) !! i = h_b (s_h s1) !! i -> delivers U fuel False s2 i (take (Z.to_nat D) d).
Proof. exact (fun V U fuel => DeliverMain.at_fresh U fuel (delivers U fuel) (DeliverMain.enough_delivers U fuel)). Qed.
Print Assumptions C24_readerat_whole.

(** The same for a Reader with Seek but without ReadAt. *)
Theorem C24_seeker : forall (V : Type) (U : uenv V) (fuel : nat) (r : rid) (live : V -> Prop) (d : bytes) (early : bool),
  serves_seek (u_env U) r live d early -> cp_readerat (ev_caps (u_env U) r) = false -> cp_seeker (ev_caps (u_env U) r) = true ->
  calm U (fun v v' => live v -> live v') ->
  forall v s1 i cs s2 os (D : Z) j, live v -> wrapped_in U fuel r v s1 i cs s2 os -> announced U fuel s1 i D -> 0 <= D <= zlen d -> holds U fuel s2 j r ->
  exists P R, take (Z.to_nat D) d = P ++ R /\ delivers U fuel False s2 j R.
Proof. exact (fun V U fuel => DeliverMain.seek_any U fuel (delivers U fuel) (DeliverMain.enough_delivers U fuel)). Qed.
Print Assumptions C24_seeker.
Theorem C24_seeker_whole : forall (V : Type) (U : uenv V) (fuel : nat) (r : rid) (live : V -> Prop) (d : bytes) (early : bool),
  serves_seek (u_env U) r live d early -> cp_readerat (ev_caps (u_env U) r) = false -> cp_seeker (ev_caps (u_env U) r) = true ->
  calm U (fun v v' => live v -> live v') ->
  forall v s1 i cs s2 os (D : Z), live v -> wrapped_in U fuel r v s1 i cs s2 os -> announced U fuel s1 i D -> 0 <= D <= zlen d ->
  h_b (s_h s2) !! i = h_b (s_h s1) !! i -> delivers U fuel False s2 i (take (Z.to_nat D) d).
Proof. exact (fun V U fuel => DeliverMain.seek_fresh U fuel (delivers U fuel) (DeliverMain.enough_delivers U fuel)). Qed.
Print Assumptions C24_seeker_whole.

(** A Reader that can only be read: it streams [d], in whatever chunks, and then
    reports EOF.  [cut D d] is [d] up to the declared length, if there is one.
    Serve may wait for ever only if the Reader keeps it waiting. *)
Theorem C24_stream : forall (V : Type) (U : uenv V) (fuel : nat), forall (r : rid) (gp : V -> nat) (d : bytes),
  streams (u_env U) r gp d EOF -> calm U (fun v v' => gp v' = gp v) ->
  forall v s1 i cs s2 os (D : Z) j, gp v = 0%nat -> wrapped_in U fuel r v s1 i cs s2 os -> announced U fuel s1 i D ->
  (cp_readerat (ev_caps (u_env U) r) || cp_seeker (ev_caps (u_env U) r)) && (0 <=? D) = false -> holds U fuel s2 j r ->
  exists P R, cut D d = P ++ R /\ delivers U fuel True s2 j R.
Proof. exact (fun V U fuel => DeliverMain.stream_any U fuel (delivers U fuel) (DeliverMain.enough_delivers U fuel)). Qed.
Print Assumptions C24_stream.
Theorem C24_stream_whole : forall (V : Type) (U : uenv V) (fuel : nat), forall (r : rid) (gp : V -> nat) (d : bytes),
  streams (u_env U) r gp d EOF -> calm U (fun v v' => gp v' = gp v) ->
  forall v s1 i cs s2 os (D : Z), gp v = 0%nat -> wrapped_in U fuel r v s1 i cs s2 os -> announced U fuel s1 i D ->
  (cp_readerat (ev_caps (u_env U) r) || cp_seeker (ev_caps (u_env U) r)) && (0 <=? D) = false ->
  h_b (s_h s2) !! i = h_b (s_h s1) !! i -> delivers U fuel True s2 i (cut D d).
Proof. exact (fun V U fuel => DeliverMain.stream_fresh U fuel (delivers U fuel) (DeliverMain.enough_delivers U fuel)). Qed.
Print Assumptions C24_stream_whole.

(** Empty bodies: nothing is sent, and Serve always reports io.EOF. *)
Theorem C24_empty : forall (V : Type) (U : uenv V) (fuel : nat), forall s i b r x k by_ u h got,
  runs_to U fuel s -> h_b (s_h s) !! i = Some (BEmpty b) -> em_closed b = false ->
  s_rps s !! r = Some x -> rp_body x = Some i -> target s k = Some (by_, u) -> ready s k (rp_code x) ->
  accepting U u got -> (forall v, u_map U v u = h) -> is_Some (hview s (rp_hdrs x)) -> is_Some (view s h) ->
  exists s', texec U fuel (TDo (RServe r k)) s = (s', ORet (YErr (Some EOF))) /\ got (v_v (world s')) = got (v_v (world s)).
Proof. exact @DeliverMain.empty_body. Qed.
Print Assumptions C24_empty.

(** ** Examples *)
Definition respond (i : nat) : list tcmd := map TDo [RNewBuilder; RBuilder 0 (WithHeader "X-A" "1" true); RBuilder 0 (WithBody (Some i)); RBuild 0].

(** After one Read of 2 bytes, served through a Writer for a GET request. *)
Example C24_example_memory :
  let U := saloon (lone (hello plain 3)) no_caps in
  let cs := TDo (RB (NewString "hello world")) :: TDo (RB (Call 1 (Read (buf 2)))) :: respond 1 ++ [TDo (RNewWriter (Some 1%nat) false)] in
  let s := after U 99 (open_saloon 0%nat 1) cs in
  runs_to U 99 s /\ accepting U 0 snd /\ target s 2 = Some (Some 2%nat, 0%nat) /\ ready s 2 200 /\
  option_map rp_body (s_rps s !! 0%nat) = Some (Some 1%nat) /\
  (texec U 99 (TDo (RServe 0 2)) s).2 = ORet (YErr None) /\ (v_v (world (texec U 99 (TDo (RServe 0 2)) s).1)).2 = bs "llo world".
Proof.
  cbv zeta. split.
  { split; [apply saloon_go, lone_go|]. eexists _, _, _, _, _, _. split; [|split; [apply surjective_pairing|split; vm_compute; done]]. repeat constructor; try done. }
  split; [apply saloon_accepts|]. split; [by vm_compute|]. split; [vm_compute; done|]. split; [by vm_compute|]. split; by vm_compute.
Qed.
(** The first nine bytes of a Reader with ReadAt; a copy is closed in between; the
    ResponseWriter has ReadFrom. *)
Example C24_example_readerat :
  let U := saloon (archive (bs "hello world") random_access true None) all_caps in
  let s1 := after U 99 (open_saloon (false, 0%nat) 1) [TDo (RB (NewReaderLen 0 9))] in
  let cs := TDo (RB (Call 1 Copy)) :: TDo (RB (Call 2 (Read (buf 4)))) :: TDo (RB (Call 2 Close)) :: respond 1 in
  let s2 := after U 99 s1 cs in
  serves_at (u_env U) 0 (fun v => alive v.1) (bs "hello world") true /\ calm U (fun v v' => alive v.1 -> alive v'.1) /\
  (exists os, wrapped_in U 99 0 ((false, 0%nat), []) s1 1 cs s2 os) /\ announced U 99 s1 1 9 /\ holds U 99 s2 1 0 /\
  h_b (s_h s2) !! 1%nat = h_b (s_h s1) !! 1%nat /\ accepting U 0 snd /\ target s2 1 = Some (None, 0%nat) /\
  (texec U 99 (TDo (RServe 0 1)) s2).2 = ORet (YErr None) /\ (v_v (world (texec U 99 (TDo (RServe 0 1)) s2).1)).2 = bs "hello wor".
Proof.
  cbv zeta. split; [apply saloon_serves_at, archive_serves_at|]. split; [apply (saloon_calm _ _ (fun w w' => alive w -> alive w')); auto|]. split.
  { eexists. split; [apply saloon_go, archive_go|]. exists 1%nat, [∅], [], [], [], (open_saloon (false, 0%nat) 1), (NewReaderLen 0 9).
    split; [repeat constructor; done|]. split; [repeat constructor; intros [|[? ?]]; congruence|]. split; [done|]. split; [right; by eexists|].
    split; [done|]. split; [vm_compute; reflexivity|]. split; [apply surjective_pairing|]. split; vm_compute; done. }
  split; [vm_compute; reflexivity|]. split; [eexists; vm_compute; reflexivity|]. split; [by vm_compute|]. split; [apply saloon_accepts|].
  split; [by vm_compute|]. split; by vm_compute.
Qed.
(** The same with Seek only. *)
Example C24_example_seeker :
  let U := saloon (archive (bs "hello world") seekable false None) no_caps in
  let s1 := after U 99 (open_saloon (false, 0%nat) 1) [TDo (RB (NewReaderLen 0 9))] in
  let cs := TDo (RB (Call 1 Copy)) :: TDo (RB (Call 2 (Read (buf 4)))) :: respond 2 in
  let s2 := after U 99 s1 cs in
  serves_seek (u_env U) 0 (fun v => alive v.1) (bs "hello world") false /\
  (exists os, wrapped_in U 99 0 ((false, 0%nat), []) s1 1 cs s2 os) /\ announced U 99 s1 1 9 /\ holds U 99 s2 2 0 /\
  (texec U 99 (TDo (RServe 0 1)) s2).2 = ORet (YErr None) /\ (v_v (world (texec U 99 (TDo (RServe 0 1)) s2).1)).2 = bs "o wor".
Proof.
  cbv zeta. split; [apply saloon_serves_seek, archive_serves_seek; vm_compute; done|]. split.
  { eexists. split; [apply saloon_go, archive_go|]. exists 1%nat, [∅], [], [], [], (open_saloon (false, 0%nat) 1), (NewReaderLen 0 9).
    split; [repeat constructor; done|]. split; [repeat constructor; intros [|[? ?]]; congruence|]. split; [done|]. split; [right; by eexists|].
    split; [done|]. split; [vm_compute; reflexivity|]. split; [apply surjective_pairing|]. split; vm_compute; done. }
  split; [vm_compute; reflexivity|]. split; [eexists; vm_compute; reflexivity|]. split; by vm_compute.
Qed.
(** A stream in chunks of three bytes, of unknown length. *)
Example C24_example_stream :
  let U := saloon (lone (hello plain 3)) no_caps in
  let s1 := after U 99 (open_saloon 0%nat 1) [TDo (RB (NewReader 0))] in
  let cs := TDo (RB (Call 1 (Read (buf 4)))) :: respond 1 in
  let s2 := after U 99 s1 cs in
  streams (u_env U) 0 (fun v => Nat.min v.1 11) (bs "hello world") EOF /\ calm U (fun v v' => Nat.min v'.1 11 = Nat.min v.1 11) /\
  (exists os, wrapped_in U 99 0 (0%nat, []) s1 1 cs s2 os) /\ announced U 99 s1 1 (-1) /\ holds U 99 s2 1 0 /\
  (texec U 99 (TDo (RServe 0 1)) s2).2 = ORet (YErr None) /\ (v_v (world (texec U 99 (TDo (RServe 0 1)) s2).1)).2 = bs "o world".
Proof.
  cbv zeta. split; [apply (saloon_streams (lone (hello plain 3)) no_caps 0 (fun w => Nat.min w 11)), (lone_streams (hello plain 3)); cbn; lia|].
  split; [apply (saloon_calm _ _ (fun w w' => Nat.min w' 11 = Nat.min w 11)); auto|]. split.
  { eexists. split; [apply saloon_go, lone_go|]. exists 1%nat, [∅], [], [], [], (open_saloon 0%nat 1), (NewReader 0).
    split; [repeat constructor; done|]. split; [repeat constructor; intros [|[? ?]]; congruence|]. split; [done|]. split; [by left|].
    split; [done|]. split; [vm_compute; reflexivity|]. split; [apply surjective_pairing|]. split; vm_compute; done. }
  split; [vm_compute; reflexivity|]. split; [eexists; vm_compute; reflexivity|]. split; by vm_compute.
Qed.
(** An empty body. *)
Example C24_example_empty :
  let U := saloon (lone (hello plain 3)) no_caps in
  let s := after U 99 (open_saloon 0%nat 1) (map TDo [RB NewEmpty; RNewBuilder; RBuilder 0 (WithBody (Some 1%nat)); RBuild 0]) in
  runs_to U 99 s /\ h_b (s_h s) !! 1%nat = Some (BEmpty {| em_eof := false; em_closed := false |}) /\
  option_map rp_body (s_rps s !! 0%nat) = Some (Some 1%nat) /\ target s 1 = Some (None, 0%nat) /\
  (texec U 99 (TDo (RServe 0 1)) s).2 = ORet (YErr (Some EOF)).
Proof.
  cbv zeta. split.
  { split; [apply saloon_go, lone_go|]. eexists _, _, _, _, _, _. split; [|split; [apply surjective_pairing|split; vm_compute; done]]. repeat constructor; try done. }
  split; [by vm_compute|]. split; [by vm_compute|]. split; by vm_compute.
Qed.
