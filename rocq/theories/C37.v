(** * C37: A Response and its Copy serve the same *)
From stdpp Require Import gmap.
From Verif Require Import DeliverSpec WitnessServe.
From Verif Require DeliverMain CopyMain.

(** All but the last theorem speak of [twins]: Copy succeeds, and the copy has the
    same status, header map and error and a body of its own; reading or serving
    either of the two gives the same bytes [R], even after the other has been
    served.  The contracts of the Readers are the same as in C24. *)

(** Bytes in memory, in the middle of any program. *)
Theorem C37_memory : forall (V : Type) (U : uenv V) (fuel : nat), forall s j b,
  runs_to U fuel s -> h_b (s_h s) !! j = Some (BBytes b) -> by_closed b = false ->
  twins U fuel False s j (if by_eof b then [] else drop (Z.to_nat (by_offset b)) (by_data b)).
Proof. exact (fun V U fuel s j b => DeliverMain.memory U fuel (twins U fuel) s j b (DeliverMain.enough_twins U fuel)). Qed.
Print Assumptions C37_memory.

(** A Reader with ReadAt; [j] is the Body made of it, or a copy. *)
Theorem C37_readerat : forall (V : Type) (U : uenv V) (fuel : nat) (r : rid) (live : V -> Prop) (d : bytes) (early : bool),
  serves_at (u_env U) r live d early -> cp_readerat (ev_caps (u_env U) r) = true -> calm U (fun v v' => live v -> live v') ->
  forall v s1 i cs s2 os (D : Z) j, live v -> wrapped_in U fuel r v s1 i cs s2 os -> announced U fuel s1 i D -> 0 <= D <= zlen d -> holds U fuel s2 j r ->
  exists P R, take (Z.to_nat D) d = P ++ R /\ twins U fuel False s2 j R.
Proof. exact (fun V U fuel => DeliverMain.at_any U fuel (twins U fuel) (DeliverMain.enough_twins U fuel)). Qed.
Print Assumptions C37_readerat.
Theorem C37_readerat_whole : forall (V : Type) (U : uenv V) (fuel : nat) (r : rid) (live : V -> Prop) (d : bytes) (early : bool),
  serves_at (u_env U) r live d early -> cp_readerat (ev_caps (u_env U) r) = true -> calm U (fun v v' => live v -> live v') ->
  forall v s1 i cs s2 os (D : Z), live v -> wrapped_in U fuel r v s1 i cs s2 os -> announced U fuel s1 i D -> 0 <= D <= zlen d ->
  h_b (s_h s2) !! i = h_b (s_h s1) !! i -> twins U fuel False s2 i (take (Z.to_nat D) d).
Proof. exact (fun V U fuel => DeliverMain.at_fresh U fuel (twins U fuel) (DeliverMain.enough_twins U fuel)). Qed.
Print Assumptions C37_readerat_whole.

(** A Reader with Seek but without ReadAt. *)
Theorem C37_seeker : forall (V : Type) (U : uenv V) (fuel : nat) (r : rid) (live : V -> Prop) (d : bytes) (early : bool),
  serves_seek (u_env U) r live d early -> cp_readerat (ev_caps (u_env U) r) = false -> cp_seeker (ev_caps (u_env U) r) = true ->
  calm U (fun v v' => live v -> live v') ->
  forall v s1 i cs s2 os (D : Z) j, live v -> wrapped_in U fuel r v s1 i cs s2 os -> announced U fuel s1 i D -> 0 <= D <= zlen d -> holds U fuel s2 j r ->
  exists P R, take (Z.to_nat D) d = P ++ R /\ twins U fuel False s2 j R.
Proof. exact (fun V U fuel => DeliverMain.seek_any U fuel (twins U fuel) (DeliverMain.enough_twins U fuel)). Qed.
Print Assumptions C37_seeker.
Theorem C37_seeker_whole : forall (V : Type) (U : uenv V) (fuel : nat) (r : rid) (live : V -> Prop) (d : bytes) (early : bool),
  serves_seek (u_env U) r live d early -> cp_readerat (ev_caps (u_env U) r) = false -> cp_seeker (ev_caps (u_env U) r) = true ->
  calm U (fun v v' => live v -> live v') ->
  forall v s1 i cs s2 os (D : Z), live v -> wrapped_in U fuel r v s1 i cs s2 os -> announced U fuel s1 i D -> 0 <= D <= zlen d ->
  h_b (s_h s2) !! i = h_b (s_h s1) !! i -> twins U fuel False s2 i (take (Z.to_nat D) d).
Proof. exact (fun V U fuel => DeliverMain.seek_fresh U fuel (twins U fuel) (DeliverMain.enough_twins U fuel)). Qed.
Print Assumptions C37_seeker_whole.

(** A Reader that can only be read. *)
Theorem C37_stream : forall (V : Type) (U : uenv V) (fuel : nat), forall (r : rid) (gp : V -> nat) (d : bytes),
  streams (u_env U) r gp d EOF -> calm U (fun v v' => gp v' = gp v) ->
  forall v s1 i cs s2 os (D : Z) j, gp v = 0%nat -> wrapped_in U fuel r v s1 i cs s2 os -> announced U fuel s1 i D ->
  (cp_readerat (ev_caps (u_env U) r) || cp_seeker (ev_caps (u_env U) r)) && (0 <=? D) = false -> holds U fuel s2 j r ->
  exists P R, cut D d = P ++ R /\ twins U fuel True s2 j R.
Proof. exact (fun V U fuel => DeliverMain.stream_any U fuel (twins U fuel) (DeliverMain.enough_twins U fuel)). Qed.
Print Assumptions C37_stream.
Theorem C37_stream_whole : forall (V : Type) (U : uenv V) (fuel : nat), forall (r : rid) (gp : V -> nat) (d : bytes),
  streams (u_env U) r gp d EOF -> calm U (fun v v' => gp v' = gp v) ->
  forall v s1 i cs s2 os (D : Z), gp v = 0%nat -> wrapped_in U fuel r v s1 i cs s2 os -> announced U fuel s1 i D ->
  (cp_readerat (ev_caps (u_env U) r) || cp_seeker (ev_caps (u_env U) r)) && (0 <=? D) = false ->
  h_b (s_h s2) !! i = h_b (s_h s1) !! i -> twins U fuel True s2 i (cut D d).
Proof. exact (fun V U fuel => DeliverMain.stream_fresh U fuel (twins U fuel) (DeliverMain.enough_twins U fuel)). Qed.
Print Assumptions C37_stream_whole.

(** The original and the copy (or one of them twice: [a], [b]) are served, one after
    the other, on clients with header maps [h] and [h'], and a status is sent both
    times.  Both times it is the status of the original, and its headers [X] are
    what has been transferred (see C26). *)
Theorem C37_headers : forall (V : Type) (U : uenv V) (fuel : nat), forall s r x s1 r2 a b k by_ u h X Y s2 o new k' by' u' h' Y' s3 o' new',
  s_rps s !! r = Some x -> texec U fuel (TDo (RCopy r)) s = (s1, ORet (YNew (Some r2) None)) ->
  a = r \/ a = r2 -> b = r \/ b = r2 -> hview s (rp_hdrs x) = Some X -> rp_hdrs x <> Some h ->
  target s1 k = Some (by_, u) -> (forall v, u_map U v u = h) -> view s1 h = Some Y ->
  serving U fuel s1 a k s2 o new -> status_sent new ->
  target s2 k' = Some (by', u') -> (forall v, u_map U v u' = h') -> view s2 h' = Some Y' ->
  serving U fuel s2 b k' s3 o' new' -> status_sent new' ->
  (exists l res tail, new = push_events by_ u l ++ asked by_ (rp_code x) ++ UHeader by_ u (rp_code x) res :: tail /\ Forall ordinary tail) /\
  view s2 h = Some (delete "Push" X ∪ Y) /\
  (exists l res tail, new' = push_events by' u' l ++ asked by' (rp_code x) ++ UHeader by' u' (rp_code x) res :: tail /\ Forall ordinary tail) /\
  view s3 h' = Some (delete "Push" X ∪ Y').
Proof. exact @CopyMain.same_headers. Qed.
Print Assumptions C37_headers.

(** ** Examples *)
Definition respond (i : nat) : list tcmd := map TDo [RNewBuilder; RBuilder 0 (WithHeader "X-A" "1" true); RBuilder 0 (WithBody (Some i)); RBuild 0].
(** Copy the Response, serve the copy on the first client, serve the original on the second. *)
Definition both : list tcmd := map TDo [RCopy 0; RServe 1 1; RServe 0 2].

Example C37_example_memory :
  let U := saloon (lone (hello plain 3)) no_caps in
  let s := after U 99 (open_saloon 0%nat 2) (TDo (RB (NewString "hello world")) :: TDo (RB (Call 1 (Read (buf 2)))) :: respond 1) in
  runs_to U 99 s /\ h_b (s_h s) !! 1%nat = Some (BBytes {| by_data := bs "hello world"; by_offset := 2; by_eof := false; by_closed := false |}) /\
  option_map rp_body (s_rps s !! 0%nat) = Some (Some 1%nat) /\ option_map rp_hdrs (s_rps s !! 0%nat) <> Some (Some 0%nat) /\
  accepting U 0 snd /\ (thistory U 99 s both).2 = [ORet (YNew (Some 1%nat) None); ORet (YErr None); ORet (YErr None)] /\
  (v_v (world (thistory U 99 s both).1)).2 = bs "llo worldllo world".
Proof.
  cbv zeta. split.
  { split; [apply saloon_go, lone_go|]. eexists _, _, _, _, _, _. split; [|split; [apply surjective_pairing|split; vm_compute; done]]. repeat constructor; try done. }
  split; [by vm_compute|]. split; [by vm_compute|]. split; [by vm_compute|]. split; [apply saloon_accepts|]. split; by vm_compute.
Qed.
Example C37_example_readerat :
  let U := saloon (archive (bs "hello world") random_access true None) all_caps in
  let s1 := after U 99 (open_saloon (false, 0%nat) 2) [TDo (RB (NewReaderLen 0 9))] in
  let cs := TDo (RB (Call 1 (Read (buf 4)))) :: respond 1 in
  let s2 := after U 99 s1 cs in
  serves_at (u_env U) 0 (fun v => alive v.1) (bs "hello world") true /\ calm U (fun v v' => alive v.1 -> alive v'.1) /\
  (exists os, wrapped_in U 99 0 ((false, 0%nat), []) s1 1 cs s2 os) /\ announced U 99 s1 1 9 /\ holds U 99 s2 1 0 /\
  (thistory U 99 s2 both).2 = [ORet (YNew (Some 1%nat) None); ORet (YErr None); ORet (YErr None)] /\
  (v_v (world (thistory U 99 s2 both).1)).2 = bs "o woro wor".
Proof.
  cbv zeta. split; [apply saloon_serves_at, archive_serves_at|]. split; [apply (saloon_calm _ _ (fun w w' => alive w -> alive w')); auto|]. split.
  { eexists. split; [apply saloon_go, archive_go|]. exists 2%nat, [∅; ∅], [], [], [], (open_saloon (false, 0%nat) 2), (NewReaderLen 0 9).
    split; [repeat constructor; done|]. split; [repeat constructor; intros [|[? ?]]; congruence|]. split; [done|]. split; [right; by eexists|].
    split; [done|]. split; [vm_compute; reflexivity|]. split; [apply surjective_pairing|]. split; vm_compute; done. }
  split; [vm_compute; reflexivity|]. split; [eexists; vm_compute; reflexivity|]. split; by vm_compute.
Qed.
Example C37_example_seeker :
  let U := saloon (archive (bs "hello world") seekable false None) no_caps in
  let s1 := after U 99 (open_saloon (false, 0%nat) 2) [TDo (RB (NewReaderLen 0 9))] in
  let cs := TDo (RB (Call 1 (Read (buf 4)))) :: respond 1 in
  let s2 := after U 99 s1 cs in
  serves_seek (u_env U) 0 (fun v => alive v.1) (bs "hello world") false /\
  (exists os, wrapped_in U 99 0 ((false, 0%nat), []) s1 1 cs s2 os) /\ announced U 99 s1 1 9 /\ holds U 99 s2 1 0 /\
  (thistory U 99 s2 both).2 = [ORet (YNew (Some 1%nat) None); ORet (YErr None); ORet (YErr None)] /\
  (v_v (world (thistory U 99 s2 both).1)).2 = bs "o woro wor".
Proof.
  cbv zeta. split; [apply saloon_serves_seek, archive_serves_seek; vm_compute; done|]. split.
  { eexists. split; [apply saloon_go, archive_go|]. exists 2%nat, [∅; ∅], [], [], [], (open_saloon (false, 0%nat) 2), (NewReaderLen 0 9).
    split; [repeat constructor; done|]. split; [repeat constructor; intros [|[? ?]]; congruence|]. split; [done|]. split; [right; by eexists|].
    split; [done|]. split; [vm_compute; reflexivity|]. split; [apply surjective_pairing|]. split; vm_compute; done. }
  split; [vm_compute; reflexivity|]. split; [eexists; vm_compute; reflexivity|]. split; by vm_compute.
Qed.
Example C37_example_stream :
  let U := saloon (lone (hello plain 3)) no_caps in
  let s1 := after U 99 (open_saloon 0%nat 2) [TDo (RB (NewReader 0))] in
  let cs := TDo (RB (Call 1 (Read (buf 4)))) :: respond 1 in
  let s2 := after U 99 s1 cs in
  streams (u_env U) 0 (fun v => Nat.min v.1 11) (bs "hello world") EOF /\ calm U (fun v v' => Nat.min v'.1 11 = Nat.min v.1 11) /\
  (exists os, wrapped_in U 99 0 (0%nat, []) s1 1 cs s2 os) /\ announced U 99 s1 1 (-1) /\ holds U 99 s2 1 0 /\
  (thistory U 99 s2 both).2 = [ORet (YNew (Some 1%nat) None); ORet (YErr None); ORet (YErr None)] /\
  (v_v (world (thistory U 99 s2 both).1)).2 = bs "o worldo world".
Proof.
  cbv zeta. split; [apply (saloon_streams (lone (hello plain 3)) no_caps 0 (fun w => Nat.min w 11)), (lone_streams (hello plain 3)); cbn; lia|].
  split; [apply (saloon_calm _ _ (fun w w' => Nat.min w' 11 = Nat.min w 11)); auto|]. split.
  { eexists. split; [apply saloon_go, lone_go|]. exists 2%nat, [∅; ∅], [], [], [], (open_saloon 0%nat 2), (NewReader 0).
    split; [repeat constructor; done|]. split; [repeat constructor; intros [|[? ?]]; congruence|]. split; [done|]. split; [by left|].
    split; [done|]. split; [vm_compute; reflexivity|]. split; [apply surjective_pairing|]. split; vm_compute; done. }
  split; [vm_compute; reflexivity|]. split; [eexists; vm_compute; reflexivity|]. split; by vm_compute.
Qed.
(** Headers: the copy is served first, then the original; both times X-A is sent. *)
Example C37_example_headers :
  let U := saloon (lone (hello plain 3)) no_caps in
  let s := after U 99 (open_saloon 0%nat 2) (TDo (RB (NewString "hello world")) :: respond 1) in
  let s1 := (texec U 99 (TDo (RCopy 0)) s).1 in
  let s2 := (texec U 99 (TDo (RServe 1 1)) s1).1 in
  let s3 := (texec U 99 (TDo (RServe 0 2)) s2).1 in
  (texec U 99 (TDo (RCopy 0)) s).2 = ORet (YNew (Some 1%nat) None) /\ target s1 1 = Some (None, 0%nat) /\ target s2 2 = Some (None, 1%nat) /\
  (forall v u, u_map U v u = u) /\ is_Some (view s1 0%nat) /\ is_Some (view s2 1%nat) /\
  (exists tail, serving U 99 s1 1 1 s2 (ORet (YErr None)) (UHeader None 0 200 None :: tail)) /\
  (exists tail, serving U 99 s2 0 2 s3 (ORet (YErr None)) (UHeader None 1 200 None :: tail)) /\
  match view s3 1%nat with Some x => x !! "X-A" | None => None end = Some ["1"].
Proof.
  cbv zeta. split; [by vm_compute|]. split; [by vm_compute|]. split; [by vm_compute|]. split; [done|]. split; [eexists; vm_compute; reflexivity|]. split; [eexists; vm_compute; reflexivity|].
  split; [eexists; split; vm_compute; reflexivity|]. split; [eexists; split; vm_compute; reflexivity|]. by vm_compute.
Qed.
