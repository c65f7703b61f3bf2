(** * C30: HEAD and 204 responses send no body *)
From stdpp Require Import gmap.
From Verif Require Import DeliverSpec WitnessServe.
From Verif Require WriterMain DeliverMain.

(** A Writer made for a HEAD request, whatever is done from then on. *)
Theorem C30_head : forall (V : Type) (U : uenv V) (fuel : nat), forall s k u s1 k' cs,
  treaches U fuel s -> v_objs (world s) !! k = Some (WRaw u) ->
  texec U fuel (TDo (RNewWriter (Some k) true)) s = (s1, ORet (YHandle (Some k'))) ->
  Forall (fun e => ~ is_data e) (sent_by k' (wlog (thistory U fuel s1 cs).1)).
Proof. exact @WriterMain.head_requests. Qed.
Print Assumptions C30_head.

(** A Writer that has sent status 204 ([C28_stays]: it keeps that status). *)
Theorem C30_no_content : forall (V : Type) (U : uenv V) (fuel : nat), forall s k,
  treaches U fuel s -> reports U fuel s k WStatus (YInt 204) -> Forall (fun e => ~ is_data e) (sent_by k (wlog s)).
Proof. exact @WriterMain.no_content. Qed.
Print Assumptions C30_no_content.

(** Write still reports full success, unless the client's WriteHeader panics. *)
Theorem C30_Write : forall (V : Type) (U : uenv V) (fuel : nat), forall s k x p,
  v_objs (world s) !! k = Some (WWrap x) -> ww_isHEAD x = true \/ ww_status x = 204 ->
  (exists s' l, texec U fuel (TDo (RWriter k (WWrite p))) s = (s', ORet (YCount (zlen p) None)) /\
     wlog s' = wlog s ++ l /\ Forall (fun e => ~ is_data e) l) \/
  (exists s' e, texec U fuel (TDo (RWriter k (WWrite p))) s = (s', OPanic e) /\
     wlog s' = wlog s ++ [UHeader (Some k) (ww_next x) 200 (Some e)]).
Proof. exact @WriterMain.silent_Write. Qed.
Print Assumptions C30_Write.

(** ReadFrom still reads its source to the end: [drains].  Bytes in memory, in the
    middle of any program. *)
Theorem C30_ReadFrom_memory : forall (V : Type) (U : uenv V) (fuel : nat), forall s j b,
  runs_to U fuel s -> h_b (s_h s) !! j = Some (BBytes b) -> by_closed b = false ->
  drains U fuel False s j (if by_eof b then [] else drop (Z.to_nat (by_offset b)) (by_data b)).
Proof. exact (fun V U fuel s j b => DeliverMain.memory U fuel (drains U fuel) s j b (DeliverMain.enough_drains U fuel)). Qed.
Print Assumptions C30_ReadFrom_memory.

(** A Reader with ReadAt; the contracts of the Readers are the same as in C24. *)
Theorem C30_ReadFrom_readerat : forall (V : Type) (U : uenv V) (fuel : nat) (r : rid) (live : V -> Prop) (d : bytes) (early : bool),
  serves_at (u_env U) r live d early -> cp_readerat (ev_caps (u_env U) r) = true -> calm U (fun v v' => live v -> live v') ->
  forall v s1 i cs s2 os (D : Z) j, live v -> wrapped_in U fuel r v s1 i cs s2 os -> announced U fuel s1 i D -> 0 <= D <= zlen d -> holds U fuel s2 j r ->
  exists P R, take (Z.to_nat D) d = P ++ R /\ drains U fuel False s2 j R.
Proof. exact (fun V U fuel => DeliverMain.at_any U fuel (drains U fuel) (DeliverMain.enough_drains U fuel)). Qed.
Print Assumptions C30_ReadFrom_readerat.

(** A Reader with Seek but without ReadAt. *)
Theorem C30_ReadFrom_seeker : forall (V : Type) (U : uenv V) (fuel : nat) (r : rid) (live : V -> Prop) (d : bytes) (early : bool),
  serves_seek (u_env U) r live d early -> cp_readerat (ev_caps (u_env U) r) = false -> cp_seeker (ev_caps (u_env U) r) = true ->
  calm U (fun v v' => live v -> live v') ->
  forall v s1 i cs s2 os (D : Z) j, live v -> wrapped_in U fuel r v s1 i cs s2 os -> announced U fuel s1 i D -> 0 <= D <= zlen d -> holds U fuel s2 j r ->
  exists P R, take (Z.to_nat D) d = P ++ R /\ drains U fuel False s2 j R.
Proof. exact (fun V U fuel => DeliverMain.seek_any U fuel (drains U fuel) (DeliverMain.enough_drains U fuel)). Qed.
Print Assumptions C30_ReadFrom_seeker.

(** A Reader that can only be read. *)
Theorem C30_ReadFrom_stream : forall (V : Type) (U : uenv V) (fuel : nat), forall (r : rid) (gp : V -> nat) (d : bytes),
  streams (u_env U) r gp d EOF -> calm U (fun v v' => gp v' = gp v) ->
  forall v s1 i cs s2 os (D : Z) j, gp v = 0%nat -> wrapped_in U fuel r v s1 i cs s2 os -> announced U fuel s1 i D ->
  (cp_readerat (ev_caps (u_env U) r) || cp_seeker (ev_caps (u_env U) r)) && (0 <=? D) = false -> holds U fuel s2 j r ->
  exists P R, cut D d = P ++ R /\ drains U fuel True s2 j R.
Proof. exact (fun V U fuel => DeliverMain.stream_any U fuel (drains U fuel) (DeliverMain.enough_drains U fuel)). Qed.
Print Assumptions C30_ReadFrom_stream.

Definition demo_s : state (list nat) :=
  after (web_ok []) 9 (start [] 2)
    [TDo (RNewWriter (Some 1%nat) true); TDo (RWriter 3 (WWrite (bs "abc")));
     TDo (RNewWriter (Some 2%nat) false); TDo (RWriter 4 (WWriteHeader 204)); TDo (RB (NewBytes (bs "hello"))); TDo (RWriter 4 (WReadFrom 1))].
Example C30_example :
  treaches (web_ok []) 9 demo_s /\
  wlog demo_s = [UHeader (Some 3%nat) 0 200 None; UAsked 4 204; UHeader (Some 4%nat) 1 204 None] /\
  (texec (web_ok []) 9 (TDo (RWriter 4 (WWrite (bs "abcd")))) demo_s).2 = ORet (YCount 4 None) /\
  (texec (web_ok []) 9 (TDo (RB (Call 1 BytesRemaining))) demo_s).2 = ORet (YBody (RInt 0)).
Proof. split; [apply after_reaches|]. vm_compute. done. Qed.

(** ReadFrom on a Writer for a HEAD request: everything is read, nothing is sent. *)
Example C30_example_memory :
  let U := saloon (lone (hello plain 3)) all_caps in
  let s := after U 99 (open_saloon 0%nat 1) (map TDo [RB (NewString "hello world"); RB (Call 1 (Read (buf 2))); RNewWriter (Some 1%nat) true]) in
  runs_to U 99 s /\ h_b (s_h s) !! 1%nat = Some (BBytes {| by_data := bs "hello world"; by_offset := 2; by_eof := false; by_closed := false |}) /\
  (exists x, v_objs (world s) !! 2%nat = Some (WWrap x) /\ ww_isHEAD x = true /\ ww_kind x = KFancy) /\
  (texec U 99 (TDo (RWriter 2 (WReadFrom 1))) s).2 = ORet (YCount 9 None) /\ (v_v (world (texec U 99 (TDo (RWriter 2 (WReadFrom 1))) s).1)).2 = [].
Proof.
  cbv zeta. split.
  { split; [apply saloon_go, lone_go|]. eexists _, _, _, _, _, _. split; [|split; [apply surjective_pairing|split; vm_compute; done]]. repeat constructor; try done. }
  split; [by vm_compute|]. split; [eexists; split; [vm_compute; reflexivity|done]|]. split; by vm_compute.
Qed.
Example C30_example_readerat :
  let U := saloon (archive (bs "hello world") random_access true None) all_caps in
  let s1 := after U 99 (open_saloon (false, 0%nat) 1) [TDo (RB (NewReaderLen 0 9))] in
  let cs := map TDo [RB (Call 1 (Read (buf 4))); RNewWriter (Some 1%nat) true] in
  let s2 := after U 99 s1 cs in
  serves_at (u_env U) 0 (fun v => alive v.1) (bs "hello world") true /\ calm U (fun v v' => alive v.1 -> alive v'.1) /\
  (exists os, wrapped_in U 99 0 ((false, 0%nat), []) s1 1 cs s2 os) /\ announced U 99 s1 1 9 /\ holds U 99 s2 1 0 /\
  (exists x, v_objs (world s2) !! 2%nat = Some (WWrap x) /\ ww_isHEAD x = true /\ ww_kind x = KFancy) /\
  (texec U 99 (TDo (RWriter 2 (WReadFrom 1))) s2).2 = ORet (YCount 5 None).
Proof.
  cbv zeta. split; [apply saloon_serves_at, archive_serves_at|]. split; [apply (saloon_calm _ _ (fun w w' => alive w -> alive w')); auto|]. split.
  { eexists. split; [apply saloon_go, archive_go|]. exists 1%nat, [∅], [], [], [], (open_saloon (false, 0%nat) 1), (NewReaderLen 0 9).
    split; [repeat constructor; done|]. split; [repeat constructor; intros [|[? ?]]; congruence|]. split; [done|]. split; [right; by eexists|].
    split; [done|]. split; [vm_compute; reflexivity|]. split; [apply surjective_pairing|]. split; vm_compute; done. }
  split; [vm_compute; reflexivity|]. split; [eexists; vm_compute; reflexivity|]. split; [eexists; split; [vm_compute; reflexivity|done]|]. by vm_compute.
Qed.
Example C30_example_seeker :
  let U := saloon (archive (bs "hello world") seekable false None) all_caps in
  let s1 := after U 99 (open_saloon (false, 0%nat) 1) [TDo (RB (NewReaderLen 0 9))] in
  let cs := map TDo [RB (Call 1 (Read (buf 4))); RNewWriter (Some 1%nat) false; RWriter 2 (WWriteHeader 204)] in
  let s2 := after U 99 s1 cs in
  serves_seek (u_env U) 0 (fun v => alive v.1) (bs "hello world") false /\
  (exists os, wrapped_in U 99 0 ((false, 0%nat), []) s1 1 cs s2 os) /\ announced U 99 s1 1 9 /\ holds U 99 s2 1 0 /\
  (exists x, v_objs (world s2) !! 2%nat = Some (WWrap x) /\ ww_status x = 204 /\ ww_kind x = KFancy) /\
  (texec U 99 (TDo (RWriter 2 (WReadFrom 1))) s2).2 = ORet (YCount 5 None).
Proof.
  cbv zeta. split; [apply saloon_serves_seek, archive_serves_seek; vm_compute; done|]. split.
  { eexists. split; [apply saloon_go, archive_go|]. exists 1%nat, [∅], [], [], [], (open_saloon (false, 0%nat) 1), (NewReaderLen 0 9).
    split; [repeat constructor; done|]. split; [repeat constructor; intros [|[? ?]]; congruence|]. split; [done|]. split; [right; by eexists|].
    split; [done|]. split; [vm_compute; reflexivity|]. split; [apply surjective_pairing|]. split; vm_compute; done. }
  split; [vm_compute; reflexivity|]. split; [eexists; vm_compute; reflexivity|]. split; [eexists; split; [vm_compute; reflexivity|done]|]. by vm_compute.
Qed.
Example C30_example_stream :
  let U := saloon (lone (hello plain 3)) all_caps in
  let s1 := after U 99 (open_saloon 0%nat 1) [TDo (RB (NewReader 0))] in
  let cs := map TDo [RB (Call 1 (Read (buf 4))); RNewWriter (Some 1%nat) true] in
  let s2 := after U 99 s1 cs in
  streams (u_env U) 0 (fun v => Nat.min v.1 11) (bs "hello world") EOF /\ calm U (fun v v' => Nat.min v'.1 11 = Nat.min v.1 11) /\
  (exists os, wrapped_in U 99 0 (0%nat, []) s1 1 cs s2 os) /\ announced U 99 s1 1 (-1) /\ holds U 99 s2 1 0 /\
  (exists x, v_objs (world s2) !! 2%nat = Some (WWrap x) /\ ww_isHEAD x = true /\ ww_kind x = KFancy) /\
  (texec U 99 (TDo (RWriter 2 (WReadFrom 1))) s2).2 = ORet (YCount 7 None).
Proof.
  cbv zeta. split; [apply (saloon_streams (lone (hello plain 3)) all_caps 0 (fun w => Nat.min w 11)), (lone_streams (hello plain 3)); cbn; lia|].
  split; [apply (saloon_calm _ _ (fun w w' => Nat.min w' 11 = Nat.min w 11)); auto|]. split.
  { eexists. split; [apply saloon_go, lone_go|]. exists 1%nat, [∅], [], [], [], (open_saloon 0%nat 1), (NewReader 0).
    split; [repeat constructor; done|]. split; [repeat constructor; intros [|[? ?]]; congruence|]. split; [done|]. split; [by left|].
    split; [done|]. split; [vm_compute; reflexivity|]. split; [apply surjective_pairing|]. split; vm_compute; done. }
  split; [vm_compute; reflexivity|]. split; [eexists; vm_compute; reflexivity|]. split; [eexists; split; [vm_compute; reflexivity|done]|]. by vm_compute.
Qed.
