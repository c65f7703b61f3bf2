(** * C53: one request, from the Handler to the client and the metrics *)
From stdpp Require Import gmap.
From Verif Require Import ReplySpec WitnessServe.
From Verif Require Reply ReplyWitness DeliverMain.

(** The client accepts everything and Close does not fail.  The inner Handler
    returns the Response [x], whose body gives the bytes [R] when read to the end
    ([delivers], see C24).  Then the client gets the status of [x], the header of
    [x] but for Push, and the bytes [R] (none for HEAD and 204), and the metrics
    count one request with that status and the bytes sent. *)
Theorem C53_request : forall (V : Type) (U : uenv V) (fuel : nat), forall s k u h got inner isHEAD s1 k' s2 r x i R busy X Y s' o,
  treaches U fuel s -> target s k = Some (None, u) -> accepting U u got -> (forall v, u_map U v u = h) ->
  (forall v r, (ev_close (u_env U) v r).2 = None) ->
  texec U fuel (TDo (RNewWriter (Some k) isHEAD)) s = (s1, ORet (YHandle (Some k'))) ->
  returns U fuel inner s1 s2 r -> s_rps s2 !! r = Some x -> rp_body x = Some i -> delivers U fuel busy s2 i R ->
  reports U fuel s2 k' WStatus (YInt 0) -> hview s2 (rp_hdrs x) = Some X -> view s2 h = Some Y ->
  texec U fuel (TServe inner (Some k) isHEAD) s = (s', o) -> feasible (s_h s') ->
  o = OSpin /\ (busy \/ (fuel < length R + 2)%nat) \/
  o = ORet YUnit /\
  got (v_v (world s')) = got (v_v (world s2)) ++ (if isHEAD || (rp_code x =? 204) then [] else R) /\
  statuses_in (sent_by k' (wlog s')) = [(u, rp_code x)] /\
  view s' h = Some (delete "Push" X ∪ Y) /\
  s_met s' = s_met s ++ tally (itoa (rp_code x)) (wrap64 (total_accepted (sent_by k' (wlog s')))).
Proof. exact @Reply.request. Qed.
Print Assumptions C53_request.

(** The Handler answers with some bytes in memory.  Nothing is assumed of the
    client but that its WriteHeader does not panic and its Write returns a number
    of bytes it can have accepted and perhaps an error [e].  The client is sent
    exactly one status and one Write of all the bytes, or no Write for HEAD and
    204.  An error is counted as a panic and given to OnPanic. *)
Theorem C53_memory : forall (V : Type) (U : uenv V) (fuel : nat), forall s k u h Y new d code isHEAD v1 v2 n e,
  treaches U fuel s -> target s k = Some (None, u) -> u_map U (v_v (world s)) u = h -> view s h = Some Y ->
  holding new d -> d <> [] -> go_cmd new -> 200 <= code <= 999 ->
  u_writeheader U (v_v (world s)) u code = (v1, None) ->
  (if isHEAD || (code =? 204) then v2 = v1 /\ n = 0 /\ e = None else ev_write (u_env U) v1 u d = (v2, inl (n, e)) /\ 0 <= n <= zlen d) ->
  let k' : wid := length (v_objs (world s)) in
  exists s', texec U fuel (TServe (reply_with new code) (Some k) isHEAD) s = (s', match onpanic U v2 e with (_, Some p) => OPanic p | _ => ORet YUnit end) /\
    v_v (world s') = (onpanic U v2 e).1 /\
    wlog s' = wlog s ++ [UAsked k' code; UHeader (Some k') u code None] ++ (if isHEAD || (code =? 204) then [] else [UWrite (Some k') u d (inl (n, e))]) /\
    view s' h = Some (plain_header (zlen d) ∪ Y) /\ (forall m X, m <> h -> view s m = Some X -> view s' m = Some X) /\
    s_met s' = s_met s ++ counted_as (itoa code) n e.
Proof. exact @Reply.bytes. Qed.
Print Assumptions C53_memory.

(** If there are no bytes the client gets what it should, but the request is
    counted as a panic, as WriteTo of an empty Body returns EOF (empty.go:91-100) ... *)
Theorem C53_empty : forall (V : Type) (U : uenv V) (fuel : nat), forall s k u h Y new code isHEAD v1,
  treaches U fuel s -> target s k = Some (None, u) -> u_map U (v_v (world s)) u = h -> view s h = Some Y ->
  holding new [] \/ new = NewEmpty -> 200 <= code <= 999 ->
  u_writeheader U (v_v (world s)) u code = (v1, None) ->
  let k' : wid := length (v_objs (world s)) in
  exists s', texec U fuel (TServe (reply_with new code) (Some k) isHEAD) s = (s', match onpanic U v1 (Some EOF) with (_, Some p) => OPanic p | _ => ORet YUnit end) /\
    v_v (world s') = (onpanic U v1 (Some EOF)).1 /\
    wlog s' = wlog s ++ [UAsked k' code; UHeader (Some k') u code None] /\
    view s' h = Some (plain_header 0 ∪ Y) /\ (forall m X, m <> h -> view s m = Some X -> view s' m = Some X) /\
    s_met s' = s_met s ++ counted_as (itoa code) 0 (Some EOF).
Proof. exact @Reply.empty. Qed.
Print Assumptions C53_empty.
(** ... so that the property is false for them, even if nothing goes wrong. *)
Theorem C53_refuted : exists (V : Type) (U : uenv V) fuel s k u got new s',
  treaches U fuel s /\ target s k = Some (None, u) /\ accepting U u got /\ (forall v r, (ev_close (u_env U) v r).2 = None) /\
  holding new [] /\ texec U fuel (TServe (reply_with new 200) (Some k) false) s = (s', ORet YUnit) /\
  s_met s' <> s_met s ++ tally "200" 0 /\ s_met s' = s_met s ++ MPanics :: tally "200" 0 ++ [MOnPanic false (PError EOF)].
Proof. exact ReplyWitness.counted_wrong. Qed.
Print Assumptions C53_refuted.

Definition late_handler : handler :=
  HDo (RB (NewString "hello world")) (fun _ => HDo (RB (Call 1 (Read (buf 2)))) (fun _ => HDo RNewBuilder (fun _ =>
  HDo (RBuilder 0 (WithStatus 203)) (fun _ => HDo (RBuilder 0 (WithHeader "x-a" "1" false)) (fun _ => HDo (RBuilder 0 (WithHeader "Push" "/style.css" false)) (fun _ =>
  HDo (RBuilder 0 (WithBody (Some 1%nat))) (fun _ => HDo (RBuild 0) (fun _ => HReturn (Some 0%nat))))))))).
Example C53_example :
  let U := saloon (lone (hello plain 3)) all_caps in
  let s := open_saloon 0%nat 1 in
  treaches U 99 s /\ target s 1 = Some (None, 0%nat) /\ accepting U 0 snd /\
  exists s1 s2 x s', texec U 99 (TDo (RNewWriter (Some 1%nat) false)) s = (s1, ORet (YHandle (Some 2%nat))) /\
    returns U 99 late_handler s1 s2 0 /\ s_rps s2 !! 0%nat = Some x /\ rp_body x = Some 1%nat /\ delivers U 99 False s2 1 (bs "llo world") /\
    reports U 99 s2 2 WStatus (YInt 0) /\
    hview s2 (rp_hdrs x) = Some {[ "X-A" := ["1"]; "Push" := ["/style.css"]; "Content-Type" := ["application/octet-stream"]; "Content-Length" := ["9"] ]} /\
    view s2 0 = Some ∅ /\ texec U 99 (TServe late_handler (Some 1%nat) false) s = (s', ORet YUnit) /\ feasible (s_h s') /\
    (v_v (world s')).2 = bs "llo world" /\ s_met s' = tally "203" 9 /\
    view s' 0 = Some {[ "X-A" := ["1"]; "Content-Type" := ["application/octet-stream"]; "Content-Length" := ["9"] ]}.
Proof.
  cbv zeta. set (U := saloon (lone (hello plain 3)) all_caps).
  set (cs := map TDo [RNewWriter (Some 1%nat) false; RB (NewString "hello world"); RB (Call 1 (Read (buf 2))); RNewBuilder; RBuilder 0 (WithStatus 203);
    RBuilder 0 (WithHeader "x-a" "1" false); RBuilder 0 (WithHeader "Push" "/style.css" false); RBuilder 0 (WithBody (Some 1%nat)); RBuild 0]).
  split; [exact (ReplyWitness.saloon_reaches U 99 0%nat 1 [])|]. split; [done|]. split; [apply saloon_accepts|].
  exists (after U 99 (open_saloon 0%nat 1) (take 1 cs)), (after U 99 (open_saloon 0%nat 1) cs). eexists _, _. split; [vm_compute; reflexivity|]. split.
  { do 8 (eapply rt_do; [apply surjective_pairing|vm_compute; done|]).
    match goal with |- returns _ _ _ ?a ?b _ => replace b with a by (vm_compute; reflexivity) end. apply rt_return. }
  split; [vm_compute; reflexivity|]. split; [done|]. split.
  { assert (Hr : runs_to U 99 (after U 99 (open_saloon 0%nat 1) cs)).
    { split; [apply saloon_go, lone_go|]. eexists _, _, _, _, _, _. split; [|split; [apply surjective_pairing|split; vm_compute; done]]. repeat constructor; try done. }
    refine (DeliverMain.memory U 99 (delivers U 99) _ 1%nat {| by_data := bs "hello world"; by_offset := 2; by_eof := false; by_closed := false |} (DeliverMain.enough_delivers U 99) Hr _ _); by vm_compute. }
  split; [vm_compute; reflexivity|]. do 2 (split; [apply (bool_decide_eq_true_1 _); vm_compute; reflexivity|]). split; [vm_compute; reflexivity|].
  split; [split; vm_compute; done|]. split; [vm_compute; reflexivity|]. split; [vm_compute; reflexivity|]. apply (bool_decide_eq_true_1 _); vm_compute; reflexivity.
Qed.

(** A Write that fails after 2 bytes. *)
Definition flaky : uenv (list nat) := web [] (fun _ => no_caps) (fun _ => (2, Some (External 5))) (fun _ => None) reads_once.
Example C53_example_memory :
  let s := start [] 1 in
  treaches flaky 9 s /\ target s 1 = Some (None, 0%nat) /\ view s 0 = Some ∅ /\ holding (NewString "hello") (bs "hello") /\ go_cmd (NewString "hello") /\
  u_writeheader flaky (v_v (world s)) 0 404 = ([], None) /\ ev_write (u_env flaky) [] 0 (bs "hello") = ([], inl (2, Some (External 5))) /\
  exists s', texec flaky 9 (TServe (reply_with (NewString "hello") 404) (Some 1%nat) false) s = (s', ORet YUnit) /\
    wlog s' = [UAsked 2 404; UHeader (Some 2%nat) 0 404 None; UWrite (Some 2%nat) 0 (bs "hello") (inl (2, Some (External 5)))] /\
    s_met s' = MPanics :: tally "404" 2 ++ [MOnPanic false (PError (External 5))].
Proof.
  cbv zeta. split; [exact (after_reaches flaky 9 [] 1 [])|]. split; [done|]. split; [apply (bool_decide_eq_true_1 _); vm_compute; reflexivity|]. split; [right; by exists "hello"%string|]. split; [done|].
  split; [done|]. split; [done|]. eexists. split; [vm_compute; reflexivity|]. split; vm_compute; reflexivity.
Qed.
Example C53_example_empty :
  let s := start [] 1 in
  treaches flaky 9 s /\ target s 1 = Some (None, 0%nat) /\ view s 0 = Some ∅ /\ u_writeheader flaky (v_v (world s)) 0 200 = ([], None) /\
  exists s', texec flaky 9 (TServe (reply_with NewEmpty 200) (Some 1%nat) false) s = (s', ORet YUnit) /\
    wlog s' = [UAsked 2 200; UHeader (Some 2%nat) 0 200 None] /\ s_met s' = MPanics :: tally "200" 0 ++ [MOnPanic false (PError EOF)].
Proof.
  cbv zeta. split; [exact (after_reaches flaky 9 [] 1 [])|]. split; [done|]. split; [apply (bool_decide_eq_true_1 _); vm_compute; reflexivity|].
  split; [done|]. eexists. split; [vm_compute; reflexivity|]. split; vm_compute; reflexivity.
Qed.
