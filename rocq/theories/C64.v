(** * C64: What a client gets is a function of the calls to the Builder *)
From stdpp Require Import gmap.
From Verif Require Import ClientSpec WitnessServe TemplateWitness ValueWitness.
From Verif Require ClientMain.

(** A Response is built; a program of any length follows, requests included; then a
    request is answered with a copy of the Response, on a client that accepts everything.
    It gets the status and the header of the Builder's value at Build, with the defaults
    filled in, and the bytes of the body. *)

(** Any body that C62 has shown to be a template. *)
Theorem C64_value : forall (V : Type) (U : uenv V) (fuel n0 : nat), clients_among U n0 ->
  forall s b w s2 r cs s3 os busy P R k u h got isHEAD Y s' o,
  mindfully_within U fuel n0 s -> builder_is s b w -> texec U fuel (TDo (RBuild b)) s = (s2, ORet (YHandle (Some r))) ->
  Forall (each_in (mindful n0)) cs -> Forall (each_in (go_rcmd U)) cs -> thistory U fuel s2 cs = (s3, os) -> OSpin ∉ os ->
  (forall i, v_body w = Some i -> template U fuel busy P s3 r i R) ->
  client U s3 k u h got Y -> texec U fuel (TServe (from_copy r) (Some k) isHEAD) s3 = (s', o) -> feasible (s_h s') ->
  exists i n, v_body w = Some i /\ exec (wenv U) fuel (s_h s) (Call i BytesRemaining) = (s_h s2, ORet (RInt n)) /\
    answered fuel busy s3 k u h got isHEAD Y (built n w) R s' o.
Proof. exact @ClientMain.client_gets. Qed.
Print Assumptions C64_value.

(** Bytes in memory that are as they were at Build: Content-Length is their number,
    unless it has been set otherwise. *)
Theorem C64_memory : forall (V : Type) (U : uenv V) (fuel n0 : nat), clients_among U n0 ->
  forall s b w i d s2 r cs s3 os k u h got isHEAD Y s' o, go_uenv U ->
  mindfully_within U fuel n0 s -> feasible (s_h s) -> builder_is s b w -> v_body w = Some i ->
  h_b (s_h s) !! i = Some (BBytes d) -> by_closed d = false -> (by_eof d = true -> by_offset d = zlen (by_data d)) ->
  texec U fuel (TDo (RBuild b)) s = (s2, ORet (YHandle (Some r))) ->
  Forall (each_in (mindful n0)) cs -> Forall (each_in (go_rcmd U)) cs -> thistory U fuel s2 cs = (s3, os) -> OSpin ∉ os ->
  h_b (s_h s3) !! i = Some (BBytes d) ->
  client U s3 k u h got Y -> texec U fuel (TServe (from_copy r) (Some k) isHEAD) s3 = (s', o) -> feasible (s_h s') ->
  answered fuel False s3 k u h got isHEAD Y (built (zlen (left_in d)) w) (left_in d) s' o.
Proof. exact @ClientMain.client_memory. Qed.
Print Assumptions C64_memory.

(** From NewBuilder() on: the value is that of the list of calls. *)
Theorem C64_lifetime : forall (V : Type) (U : uenv V) (fuel n0 : nat), clients_among U n0 ->
  forall s s0 b cs1 s1 os1 i d s2 r cs s3 os k u h got isHEAD Y s' o, go_uenv U ->
  mindfully_within U fuel n0 s -> texec U fuel (TDo RNewBuilder) s = (s0, ORet (YHandle (Some b))) ->
  Forall (each_in (mindful n0)) cs1 -> Forall (each_in (go_rcmd U)) cs1 -> Forall (uses_simply b) cs1 -> thistory U fuel s0 cs1 = (s1, os1) -> OSpin ∉ os1 ->
  let w := foldl (called U) new_value (omap (call_on b) cs1) in
  feasible (s_h s1) -> v_body w = Some i ->
  h_b (s_h s1) !! i = Some (BBytes d) -> by_closed d = false -> (by_eof d = true -> by_offset d = zlen (by_data d)) ->
  texec U fuel (TDo (RBuild b)) s1 = (s2, ORet (YHandle (Some r))) ->
  Forall (each_in (mindful n0)) cs -> Forall (each_in (go_rcmd U)) cs -> thistory U fuel s2 cs = (s3, os) -> OSpin ∉ os ->
  h_b (s_h s3) !! i = Some (BBytes d) ->
  client U s3 k u h got Y -> texec U fuel (TServe (from_copy r) (Some k) isHEAD) s3 = (s', o) -> feasible (s_h s') ->
  answered fuel False s3 k u h got isHEAD Y (built (zlen (left_in d)) w) (left_in d) s' o.
Proof. exact @ClientMain.client_lifetime. Qed.
Print Assumptions C64_lifetime.

(** ** Example: calls and a request in between; [traffic]; the last request. *)
Example C64_example :
  let U := club (lone (hello plain 3)) in
  let s := after U 99 (open_saloon 0%nat 3) (map TDo [RB (NewString "hello world")]) in
  let s0 := (texec U 99 (TDo RNewBuilder) s).1 in
  let s1 := after U 99 s0 setup in
  let s2 := (texec U 99 (TDo (RBuild 0)) s1).1 in
  let s3 := after U 99 s2 (traffic 1) in
  let s' := (texec U 99 (TServe (from_copy 1) (Some 3%nat) false) s3).1 in
  let w := foldl (called U) new_value (omap (call_on 0) setup) in
  let d := {| by_data := bs "hello world"; by_offset := 0; by_eof := false; by_closed := false |} in
  clients_among U 3 /\ go_uenv U /\ mindfully_within U 99 3 s /\ (texec U 99 (TDo RNewBuilder) s).2 = ORet (YHandle (Some 0%nat)) /\
  Forall (each_in (mindful 3)) setup /\ Forall (each_in (go_rcmd U)) setup /\ Forall (uses_simply 0) setup /\ OSpin ∉ (thistory U 99 s0 setup).2 /\
  feasible (s_h s1) /\ v_body w = Some 1%nat /\ h_b (s_h s1) !! 1%nat = Some (BBytes d) /\
  (texec U 99 (TDo (RBuild 0)) s1).2 = ORet (YHandle (Some 1%nat)) /\
  Forall (each_in (mindful 3)) (traffic 1) /\ Forall (each_in (go_rcmd U)) (traffic 1) /\ OSpin ∉ (thistory U 99 s2 (traffic 1)).2 /\
  h_b (s_h s3) !! 1%nat = Some (BBytes d) /\ client U s3 3 2 2 snd (default ∅ (view s3 2%nat)) /\
  (texec U 99 (TServe (from_copy 1) (Some 3%nat) false) s3).2 = ORet YUnit /\ feasible (s_h s') /\
  v_code w = 404 /\ match view s' 2%nat with Some X => (X !! "X-A", X !! "Content-Length") | None => (None, None) end = (Some ["1"; "2"], Some ["11"]).
Proof.
  cbv zeta. split; [apply club_handed|]. split; [apply club_go, lone_go|]. split; [apply (club_within _ 99 0%nat); [by apply Forall_singleton|by apply Forall_singleton|by vm_compute]|]. split; [by vm_compute|].
  split; [apply setup_plain|]. split; [apply setup_go|]. split; [apply setup_simply|]. split; [apply no_spin; by vm_compute|]. split; [by vm_compute|]. split; [by vm_compute|]. split; [by vm_compute|].
  split; [by vm_compute|]. split; [apply traffic_plain|]. split; [apply traffic_go|]. split; [apply no_spin; by vm_compute|]. split; [by vm_compute|].
  split. { split; [by vm_compute|]. split; [by apply club_accepts|]. split; [done|]. split; [done|]. apply some_default; by vm_compute. }
  split; [by vm_compute|]. split; [by vm_compute|]. split; by vm_compute.
Qed.

(** A Handler that makes a Body, calls a new Builder any number of times, and Builds. *)
Theorem C64_handler : forall (V : Type) (U : uenv V) (fuel n0 : nat), clients_among U n0 ->
  forall s new d fs k u h got isHEAD Y s' o, go_uenv U ->
  mindfully_within U fuel n0 s -> holding new d -> d <> [] -> go_cmd new -> Forall (legal U) fs ->
  client U s k u h got Y -> texec U fuel (TServe (reply_after new fs) (Some k) isHEAD) s = (s', o) -> feasible (s_h s') ->
  answered fuel False s k u h got isHEAD Y (built (zlen d) (foldl (called U) new_value (fs ++ [WithBody (Some (length (h_b (s_h s))))]))) d s' o.
Proof. exact @ClientMain.client_handler. Qed.
Print Assumptions C64_handler.

(** ** Example: a header set twice, removed, and set again; a status; an error. *)
Example C64_handler_example :
  let U := club (lone (hello plain 3)) in
  let s := after U 99 (open_saloon 0%nat 3) (map TDo [RB (NewString "hello world")]) in
  let fs := [WithHeader "x-a" "1" true; WithHeader "X-A" "2" true; WithStatus 204; WithoutHeader "x-A"; WithETag "v" false; WithHeader "X-A" "3" true;
             WithError (Some ErrClosed); WithStatus 404] in
  let r := texec U 99 (TServe (reply_after (NewString "bye") fs) (Some 2%nat) false) s in
  clients_among U 3 /\ go_uenv U /\ mindfully_within U 99 3 s /\ holding (NewString "bye") (bs "bye") /\ bs "bye" <> [] /\ go_cmd (NewString "bye") /\ Forall (legal U) fs /\
  client U s 2 1 1 snd (default ∅ (view s 1%nat)) /\ r.2 = ORet YUnit /\ feasible (s_h r.1) /\
  match view r.1 1%nat with Some X => (X !! "X-A", X !! "Etag", X !! "Content-Length") | None => (None, None, None) end = (Some ["3"], Some ["W/""v"""], Some ["3"]).
Proof.
  cbv zeta. split; [apply club_handed|]. split; [apply club_go, lone_go|]. split; [apply (club_within _ 99 0%nat); [by apply Forall_singleton|by apply Forall_singleton|by vm_compute]|].
  split; [right; by eexists|]. split; [done|]. split; [done|]. split. { repeat (apply Forall_cons; split; [done|]). by apply Forall_nil. }
  split. { split; [by vm_compute|]. split; [by apply club_accepts|]. split; [done|]. split; [done|]. apply some_default; by vm_compute. }
  split; [by vm_compute|]. split; by vm_compute.
Qed.
