(** * C62: A Response is a template for any number of requests *)
From stdpp Require Import gmap.
From Verif Require Import SafeSpec TemplateSpec WitnessServe TemplateWitness.
From Verif Require Template.

(** All theorems but the last speak of [template]: requests are answered with copies of
    one Response.  Whatever became of the earlier requests, of the copies and of their
    bodies, the next client gets the same status, header and bytes, and is counted the
    same.  The contracts of the Readers are the same as in C24. *)

(** Bytes in memory. *)
Theorem C62_memory : forall (V : Type) (U : uenv V) (fuel : nat), forall s r x i b,
  go_uenv U -> reached U fuel s -> s_rps s !! r = Some x -> rp_body x = Some i -> (forall v u, rp_hdrs x <> Some (u_map U v u)) ->
  h_b (s_h s) !! i = Some (BBytes b) -> by_closed b = false ->
  template U fuel False (fun _ => True) s r i (left_in b).
Proof. exact @Template.memory_template. Qed.
Print Assumptions C62_memory.

(** A Reader with ReadAt. *)
Theorem C62_readerat : forall (V : Type) (U : uenv V) (fuel : nat) (rd : rid) (live : V -> Prop) (d : bytes) (early : bool),
  serves_at (u_env U) rd live d early -> cp_readerat (ev_caps (u_env U) rd) = true -> calm U (fun v v' => live v -> live v') ->
  forall v s1 i cs s os (D : Z) r x, live v -> wrapped_in U fuel rd v s1 i cs s os -> OSpin ∉ os -> announced U fuel s1 i D -> 0 <= D <= zlen d ->
  h_b (s_h s) !! i = h_b (s_h s1) !! i -> reached U fuel s -> s_rps s !! r = Some x -> rp_body x = Some i -> (forall v u, rp_hdrs x <> Some (u_map U v u)) ->
  template U fuel False (spares rd) s r i (take (Z.to_nat D) d).
Proof. exact @Template.at_template. Qed.
Print Assumptions C62_readerat.

(** A Reader with Seek but without ReadAt. *)
Theorem C62_seeker : forall (V : Type) (U : uenv V) (fuel : nat) (rd : rid) (live : V -> Prop) (d : bytes) (early : bool),
  serves_seek (u_env U) rd live d early -> cp_readerat (ev_caps (u_env U) rd) = false -> cp_seeker (ev_caps (u_env U) rd) = true ->
  calm U (fun v v' => live v -> live v') ->
  forall v s1 i cs s os (D : Z) r x, live v -> wrapped_in U fuel rd v s1 i cs s os -> OSpin ∉ os -> announced U fuel s1 i D -> 0 <= D <= zlen d ->
  h_b (s_h s) !! i = h_b (s_h s1) !! i -> reached U fuel s -> s_rps s !! r = Some x -> rp_body x = Some i -> (forall v u, rp_hdrs x <> Some (u_map U v u)) ->
  template U fuel False (spares rd) s r i (take (Z.to_nat D) d).
Proof. exact @Template.seek_template. Qed.
Print Assumptions C62_seeker.

(** A Reader that can only be read. *)
Theorem C62_stream : forall (V : Type) (U : uenv V) (fuel : nat) (rd : rid) (gp : V -> nat) (d : bytes),
  streams (u_env U) rd gp d EOF -> calm U (fun v v' => gp v' = gp v) ->
  forall v s1 i cs s os (D : Z) r x, gp v = 0%nat -> wrapped_in U fuel rd v s1 i cs s os -> OSpin ∉ os -> announced U fuel s1 i D ->
  (cp_readerat (ev_caps (u_env U) rd) || cp_seeker (ev_caps (u_env U) rd)) && (0 <=? D) = false ->
  h_b (s_h s) !! i = h_b (s_h s1) !! i -> reached U fuel s -> s_rps s !! r = Some x -> rp_body x = Some i -> (forall v u, rp_hdrs x <> Some (u_map U v u)) ->
  template U fuel True (spares rd) s r i (cut D d).
Proof. exact @Template.stream_template. Qed.
Print Assumptions C62_stream.

(** It does not hold if a header is changed in place between the requests, even if it
    is the header of a client that has already been answered: Serve has put the
    Response's own slices into it (response.go:91-95). *)
Theorem C62_changed_header_refuted : exists (U : uenv (nat * bytes)) s x X s3 s' Y,
  go_uenv U /\ reached U 99 s /\ s_rps s !! 0%nat = Some x /\ rp_body x = Some 1%nat /\ hview s (rp_hdrs x) = Some X /\ (forall v u, rp_hdrs x <> Some (u_map U v u)) /\
  thistory U 99 s [TServe (from_copy 0) (Some 1%nat) false; TDo (RMap (HElem 0 "X-A" 0 "changed"))] = (s3, [ORet YUnit; ORet YUnit]) /\
  target s3 2 = Some (None, 1%nat) /\ accepting U 1 snd /\ (forall v, u_map U v 1%nat = 1%nat) /\ view s3 1%nat = Some ∅ /\
  texec U 99 (TServe (from_copy 0) (Some 2%nat) false) s3 = (s', ORet YUnit) /\
  view s' 1%nat = Some Y /\ X !! "X-A" = Some ["1"] /\ Y !! "X-A" = Some ["changed"].
Proof. exact TemplateWitness.header_shared. Qed.
Print Assumptions C62_changed_header_refuted.

(** ** Examples: after [traffic], a third client is answered in full. *)
Example C62_example_memory :
  let U := club (lone (hello plain 3)) in
  let s := after U 99 (open_saloon 0%nat 3) (TDo (RB (NewString "hello world")) :: TDo (RB (Call 1 (Read (buf 2)))) :: respond 1) in
  let s3 := after U 99 s (traffic 1) in
  let s' := (texec U 99 (TServe (from_copy 0) (Some 3%nat) false) s3).1 in
  go_uenv U /\ reached U 99 s /\ s_rps s !! 0%nat = Some {| rp_code := 200; rp_hdrs := Some 3%nat; rp_body := Some 1%nat; rp_err := None |} /\
  (forall v u, Some 3%nat <> Some (u_map U v u)) /\
  h_b (s_h s) !! 1%nat = Some (BBytes {| by_data := bs "hello world"; by_offset := 2; by_eof := false; by_closed := false |}) /\
  Forall (bystander 0 1) (traffic 1) /\ Forall (each_in (go_rcmd U)) (traffic 1) /\ OSpin ∉ (thistory U 99 s (traffic 1)).2 /\
  target s3 3 = Some (None, 2%nat) /\ accepting U 2 snd /\ (forall v r, (ev_close (u_env U) v r).2 = None) /\ feasible (s_h s') /\
  (texec U 99 (TServe (from_copy 0) (Some 3%nat) false) s3).2 = ORet YUnit /\
  (v_v (world s3)).2 = bs "llo world" /\ (v_v (world s')).2 = bs "llo worldllo world" /\
  match view s' 2%nat with Some x => x !! "X-A" | None => None end = Some ["1"].
Proof.
  cbv zeta. split; [apply club_go, lone_go|]. split; [apply (club_reached _ 99 0%nat); [do 2 (constructor; [done|]); apply respond_go|by vm_compute]|].
  split; [by vm_compute|]. split; [intros v u; cbn -[Nat.min]; intros [= H]; lia|]. split; [by vm_compute|].
  split; [by apply traffic_bystander|]. split; [apply traffic_go|]. split; [apply no_spin; by vm_compute|]. split; [by vm_compute|].
  split; [by apply club_accepts|]. split; [done|]. split; [by vm_compute|]. split; [by vm_compute|]. split; [by vm_compute|]. split; by vm_compute.
Qed.
Example C62_example_readerat :
  let U := club (archive (bs "hello world") random_access true None) in
  let s1 := after U 99 (open_saloon (false, 0%nat) 3) [TDo (RB (NewReaderLen 0 9))] in
  let s := after U 99 s1 (respond 1) in
  let s3 := after U 99 s (traffic 1) in
  let s' := (texec U 99 (TServe (from_copy 0) (Some 3%nat) false) s3).1 in
  serves_at (u_env U) 0 (fun v => alive v.1) (bs "hello world") true /\ calm U (fun v v' => alive v.1 -> alive v'.1) /\
  wrapped_in U 99 0 ((false, 0%nat), []) s1 1 (respond 1) s (thistory U 99 s1 (respond 1)).2 /\ OSpin ∉ (thistory U 99 s1 (respond 1)).2 /\ announced U 99 s1 1 9 /\
  h_b (s_h s) !! 1%nat = h_b (s_h s1) !! 1%nat /\ reached U 99 s /\
  Forall (bystander 0 1) (traffic 1) /\ Forall (each_in (go_rcmd U)) (traffic 1) /\ Forall (each_in (spares 0)) (traffic 1) /\
  OSpin ∉ (thistory U 99 s (traffic 1)).2 /\ feasible (s_h s') /\
  (texec U 99 (TServe (from_copy 0) (Some 3%nat) false) s3).2 = ORet YUnit /\
  (v_v (world s3)).2 = bs "hello wor" /\ (v_v (world s')).2 = bs "hello worhello wor".
Proof.
  cbv zeta. split; [apply club_serves_at, archive_serves_at|]. split; [apply (club_calm _ (fun w w' => alive w -> alive w')); auto|]. split.
  { split; [apply club_go, archive_go|]. exists 3%nat, [∅; ∅; ∅], [], [], [], (open_saloon (false, 0%nat) 3), (NewReaderLen 0 9).
    split; [apply respond_go|]. split; [apply respond_spares|]. split; [done|]. split; [right; by eexists|].
    split; [done|]. split; [vm_compute; reflexivity|]. split; [apply surjective_pairing|]. by vm_compute. }
  split; [apply no_spin; by vm_compute|]. split; [vm_compute; reflexivity|]. split; [vm_compute; reflexivity|].
  split; [apply (club_made _ 99); [done|apply respond_go|by vm_compute]|].
  split; [by apply traffic_bystander|]. split; [apply traffic_go|]. split; [apply traffic_spares|]. split; [apply no_spin; by vm_compute|].
  split; [by vm_compute|]. split; [by vm_compute|]. split; by vm_compute.
Qed.
Example C62_example_seeker :
  let U := club (archive (bs "hello world") seekable false None) in
  let s1 := after U 99 (open_saloon (false, 0%nat) 3) [TDo (RB (NewReaderLen 0 9))] in
  let s := after U 99 s1 (respond 1) in
  let s3 := after U 99 s (traffic 1) in
  let s' := (texec U 99 (TServe (from_copy 0) (Some 3%nat) false) s3).1 in
  serves_seek (u_env U) 0 (fun v => alive v.1) (bs "hello world") false /\ calm U (fun v v' => alive v.1 -> alive v'.1) /\
  wrapped_in U 99 0 ((false, 0%nat), []) s1 1 (respond 1) s (thistory U 99 s1 (respond 1)).2 /\ OSpin ∉ (thistory U 99 s1 (respond 1)).2 /\ announced U 99 s1 1 9 /\
  h_b (s_h s) !! 1%nat = h_b (s_h s1) !! 1%nat /\ reached U 99 s /\
  OSpin ∉ (thistory U 99 s (traffic 1)).2 /\ feasible (s_h s') /\
  (texec U 99 (TServe (from_copy 0) (Some 3%nat) false) s3).2 = ORet YUnit /\
  (v_v (world s3)).2 = bs "hello wor" /\ (v_v (world s')).2 = bs "hello worhello wor".
Proof.
  cbv zeta. split; [apply club_serves_seek, archive_serves_seek; vm_compute; done|]. split; [apply (club_calm _ (fun w w' => alive w -> alive w')); auto|]. split.
  { split; [apply club_go, archive_go|]. exists 3%nat, [∅; ∅; ∅], [], [], [], (open_saloon (false, 0%nat) 3), (NewReaderLen 0 9).
    split; [apply respond_go|]. split; [apply respond_spares|]. split; [done|]. split; [right; by eexists|].
    split; [done|]. split; [vm_compute; reflexivity|]. split; [apply surjective_pairing|]. by vm_compute. }
  split; [apply no_spin; by vm_compute|]. split; [vm_compute; reflexivity|]. split; [vm_compute; reflexivity|].
  split; [apply (club_made _ 99); [done|apply respond_go|by vm_compute]|].
  split; [apply no_spin; by vm_compute|]. split; [by vm_compute|]. split; [by vm_compute|]. split; by vm_compute.
Qed.
Example C62_example_stream :
  let U := club (lone (hello plain 3)) in
  let s1 := after U 99 (open_saloon 0%nat 3) [TDo (RB (NewReader 0))] in
  let s := after U 99 s1 (respond 1) in
  let s3 := after U 99 s (traffic 1) in
  let s' := (texec U 99 (TServe (from_copy 0) (Some 3%nat) false) s3).1 in
  streams (u_env U) 0 (fun v => Nat.min v.1 11) (bs "hello world") EOF /\ calm U (fun v v' => Nat.min v'.1 11 = Nat.min v.1 11) /\
  wrapped_in U 99 0 (0%nat, []) s1 1 (respond 1) s (thistory U 99 s1 (respond 1)).2 /\ OSpin ∉ (thistory U 99 s1 (respond 1)).2 /\ announced U 99 s1 1 (-1) /\
  h_b (s_h s) !! 1%nat = h_b (s_h s1) !! 1%nat /\ reached U 99 s /\
  OSpin ∉ (thistory U 99 s (traffic 1)).2 /\ feasible (s_h s') /\
  (texec U 99 (TServe (from_copy 0) (Some 3%nat) false) s3).2 = ORet YUnit /\
  (v_v (world s3)).2 = bs "hello world" /\ (v_v (world s')).2 = bs "hello worldhello world".
Proof.
  cbv zeta. split; [apply (club_streams (lone (hello plain 3)) 0 (fun w => Nat.min w 11)), (lone_streams (hello plain 3)); cbn; lia|].
  split; [apply (club_calm _ (fun w w' => Nat.min w' 11 = Nat.min w 11)); auto|]. split.
  { split; [apply club_go, lone_go|]. exists 3%nat, [∅; ∅; ∅], [], [], [], (open_saloon 0%nat 3), (NewReader 0).
    split; [apply respond_go|]. split; [apply respond_spares|]. split; [done|]. split; [by left|].
    split; [done|]. split; [vm_compute; reflexivity|]. split; [apply surjective_pairing|]. by vm_compute. }
  split; [apply no_spin; by vm_compute|]. split; [vm_compute; reflexivity|]. split; [vm_compute; reflexivity|].
  split; [apply (club_made _ 99); [done|apply respond_go|by vm_compute]|].
  split; [apply no_spin; by vm_compute|]. split; [by vm_compute|]. split; [by vm_compute|]. split; by vm_compute.
Qed.
