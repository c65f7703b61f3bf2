(** * C40: the Adaptor lets no panic escape, sends one status and counts each request once *)
From stdpp Require Import gmap.
From Verif Require Import AdaptorSpec WitnessResp.
From Verif Require AdaptorMain.

(** Every terminating ServeHTTP is a [request]: NewWriter, the inner Handler with
    Serve as a program [handled] of its own, and then the deferred function. *)
Theorem C40_request : forall (V : Type) (U : uenv V) (fuel : nat), forall s k by_ u inner isHEAD s' o,
  treaches U fuel s -> target s k = Some (by_, u) -> texec U fuel (TServe inner (Some k) isHEAD) s = (s', o) -> o <> OSpin ->
  exists s1 k' s2 x, request U fuel inner k isHEAD s s1 k' s2 x s' o.
Proof. exact @AdaptorMain.is_request. Qed.
Print Assumptions C40_request.

(** No panic escapes, whatever the Handler, the client and the Readers under the
    Bodies do, if the client's WriteHeader(500) and OnPanic do not panic
    themselves. *)
Theorem C40_returns : forall (V : Type) (U : uenv V) (fuel : nat), forall s k by_ u inner isHEAD s1 k' s2 x s' o,
  treaches U fuel s -> target s k = Some (by_, u) -> request U fuel inner k isHEAD s s1 k' s2 x s' o ->
  (forall v, (u_writeheader U v u 500).2 = None) -> (forall v w p, (u_onpanic U v w p).2 = None) -> o = ORet YUnit.
Proof. exact @AdaptorMain.returns. Qed.
Print Assumptions C40_returns.
(** Without this assumption, exactly their panics escape. *)
Theorem C40_escapes : forall (V : Type) (U : uenv V) (fuel : nat), forall s k by_ u inner isHEAD s1 k' s2 x s' o,
  treaches U fuel s -> target s k = Some (by_, u) -> request U fuel inner k isHEAD s s1 k' s2 x s' o ->
  o = ORet YUnit \/
  exists e, o = OPanic e /\
    (reports U fuel s2 k' WStatus (YInt 0) /\ (u_writeheader U (v_v (world s2)) u 500).2 = Some e \/
     exists p v w, x = Panicked p /\ (u_onpanic U v w p).2 = Some e).
Proof. exact @AdaptorMain.escapes. Qed.
Print Assumptions C40_escapes.

(** The Writer has sent exactly one status: that of the Handler or of Serve, or 500
    if there was none when the deferred function was entered. *)
Theorem C40_one_status : forall (V : Type) (U : uenv V) (fuel : nat), forall s k by_ u inner isHEAD s1 k' s2 x s' o st,
  treaches U fuel s -> target s k = Some (by_, u) -> request U fuel inner k isHEAD s s1 k' s2 x s' o ->
  reports U fuel s2 k' WStatus (YInt st) ->
  statuses_in (sent_by k' (wlog s')) = [(u, if st =? 0 then 500 else st)] /\
  reports U fuel s' k' WStatus (YInt (if st =? 0 then 500 else st)).
Proof. exact @AdaptorMain.one_status. Qed.
Print Assumptions C40_one_status.

(** One request is counted, and a panic and a call of OnPanic exactly if the Handler
    or Serve panicked or Serve failed; panic(nil) does not count as one. *)
Theorem C40_counted : forall (V : Type) (U : uenv V) (fuel : nat), forall s k by_ u inner isHEAD s1 k' s2 x s' o,
  treaches U fuel s -> target s k = Some (by_, u) -> request U fuel inner k isHEAD s s1 k' s2 x s' o ->
  (forall v, (u_writeheader U v u 500).2 = None) ->
  exists m, s_met s' = s_met s ++ m /\ length (requests_in m) = 1%nat /\
    panics_in m = (match x with Panicked _ => 1 | _ => 0 end)%nat /\ onpanics_in m = match x with Panicked e => [e] | _ => [] end.
Proof. exact @AdaptorMain.counted. Qed.
Print Assumptions C40_counted.

(** ** Examples *)
Definition hello_handler (last : handler) : handler :=
  HDo (RB (NewString "hello")) (fun _ => HDo RNewBuilder (fun _ => HDo (RBuilder 0 (WithBody (Some 1%nat))) (fun _ => HDo (RBuild 0) (fun _ => last)))).
Definition run_one (inner : handler) : state (list nat) * out reply := texec (web_ok []) 9 (TServe inner (Some 1%nat) false) (start [] 1).
Definition seen (r : state (list nat) * out reply) : out reply * list (uid * Z) * list string * list panic :=
  (r.2, statuses_in (sent_by 2 (wlog r.1)), requests_in (s_met r.1), onpanics_in (s_met r.1)).

(** A Handler that returns a Response, one that panics, one that returns the zero
    Response, and panic(nil). *)
Example C40_example :
  treaches (web_ok []) 9 (start [] 1) /\ target (start [] 1) 1 = Some (None, 0%nat) /\
  (forall v, (u_writeheader (web_ok []) v 0%nat 500).2 = None) /\ (forall v w p, (u_onpanic (web_ok []) v w p).2 = None) /\
  seen (run_one (hello_handler (HReturn (Some 0%nat)))) = (ORet YUnit, [(0%nat, 200)], ["200"], []) /\
  seen (run_one (hello_handler (HPanic (Some (PUser 3))))) = (ORet YUnit, [(0%nat, 500)], ["0"], [PUser 3]) /\
  seen (run_one (HReturn None)) = (ORet YUnit, [(0%nat, 500)], ["0"], [PAssert]) /\
  seen (run_one (HPanic None)) = (ORet YUnit, [(0%nat, 500)], ["0"], []).
Proof. split; [exact (after_reaches (web_ok []) 9 [] 1 [])|]. split; [done|]. split; [done|]. split; [done|]. by vm_compute. Qed.
(** The [request] made by the first of them. *)
Example C40_example_request :
  exists s1 k' s2 x s' o, request (web_ok []) 9 (hello_handler (HReturn (Some 0%nat))) 1 false (start [] 1) s1 k' s2 x s' o /\
    x = Fine /\ reports (web_ok []) 9 s2 k' WStatus (YInt 200).
Proof.
  eexists _, _, _, _, _, _. split.
  - split; [apply surjective_pairing|]. split; [vm_compute; done|]. split; [vm_compute; reflexivity|].
    do 4 (eapply hd_do; [apply surjective_pairing|vm_compute; done|]). eapply (hd_serve _ _ _ _ _ _ None). vm_compute. reflexivity.
  - split; [done|]. vm_compute. reflexivity.
Qed.
