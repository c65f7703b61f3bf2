(** * C65: A Reader that is answered with is closed once *)
From stdpp Require Import gmap.
From Verif Require Import TemplateSpec CloseSpec WitnessServe TemplateWitness CloseWitness.
From Verif Require CloseMain.

(** C06 for programs that use Builders, Responses, Writers, Adaptors and Handlers: the
    Reader [rd] is closed if and only if no Body gives it out by Unwrap, and then once. *)
Theorem C65_closed_once : forall (V : Type) (U : uenv V) (fuel : nat) (rd : rid), go_uenv U -> forall v s1 i cs s2 os,
  wrapped_in U fuel rd v s1 i cs s2 os ->
  ((exists j, holds U fuel s2 j rd) -> Forall not_close (calls_on rd (h_log (s_h s2)))) /\
  ((forall j, ~ holds U fuel s2 j rd) -> released U rd s2).
Proof. exact @CloseMain.closed_once_in. Qed.
Print Assumptions C65_closed_once.

(** Serve.  The client may do anything and Serve may return any error: it lets go of the
    Reader, unless a push failed.  [let_go]: a client's ReadFrom may have made a copy of
    the Body that it is given. *)
Theorem C65_serve : forall (V : Type) (U : uenv V) (fuel : nat) (rd : rid), go_uenv U -> forall v s1 i cs s os r y k by_ u s' e,
  wrapped_in U fuel rd v s1 i cs s os ->
  s_rps s !! r = Some y -> target s k = Some (by_, u) -> owned_by U fuel rd s y ->
  texec U fuel (TDo (RServe r k)) s = (s', ORet (YErr e)) -> e = None \/ push_urls s y = [] -> feasible (s_h s') ->
  let_go U fuel rd s s'.
Proof. exact @CloseMain.serve_closes. Qed.
Print Assumptions C65_serve.

(** A request whose Handler returns a Response that owns the Reader; the Body was made
    before the request. *)
Theorem C65_request : forall (V : Type) (U : uenv V) (fuel : nat) (rd : rid), go_uenv U -> forall v s1 i cs s os k by_ u isHEAD sw k' inner s3 r y,
  wrapped_in U fuel rd v s1 i cs s os -> OSpin ∉ os -> target s k = Some (by_, u) ->
  texec U fuel (TDo (RNewWriter (Some k) isHEAD)) s = (sw, ORet (YHandle (Some k'))) ->
  each (go_rcmd U) inner -> each (spares rd) inner -> returns U fuel inner sw s3 r -> s_rps s3 !! r = Some y ->
  forall s4 e s' o, owned_by U fuel rd s3 y ->
  texec U fuel (TDo (RServe r k')) s3 = (s4, ORet (YErr e)) -> e = None \/ push_urls s3 y = [] ->
  texec U fuel (TServe inner (Some k) isHEAD) s = (s', o) -> feasible (s_h s') -> let_go U fuel rd s3 s'.
Proof. exact @CloseMain.request_closes. Qed.
Print Assumptions C65_request.

(** In particular if the Adaptor counts no panic. *)
Theorem C65_request_fine : forall (V : Type) (U : uenv V) (fuel : nat) (rd : rid), go_uenv U -> forall v s1 i cs s os k by_ u isHEAD sw k' inner s3 r y,
  wrapped_in U fuel rd v s1 i cs s os -> OSpin ∉ os -> target s k = Some (by_, u) ->
  texec U fuel (TDo (RNewWriter (Some k) isHEAD)) s = (sw, ORet (YHandle (Some k'))) ->
  each (go_rcmd U) inner -> each (spares rd) inner -> returns U fuel inner sw s3 r -> s_rps s3 !! r = Some y ->
  forall s' l, owned_by U fuel rd s3 y ->
  texec U fuel (TServe inner (Some k) isHEAD) s = (s', ORet YUnit) -> s_met s' = s_met s ++ l -> panics_in l = 0%nat -> feasible (s_h s') -> let_go U fuel rd s3 s'.
Proof. exact @CloseMain.request_fine. Qed.
Print Assumptions C65_request_fine.

(** The same for a Handler that makes the Body itself. *)
Theorem C65_opening : forall (V : Type) (U : uenv V) (fuel : nat) (rd : rid), go_uenv U -> forall v n maps arrs cs s os k by_ u isHEAD sw k' new s1 i rest s3 r y,
  Forall (each_in (go_rcmd U)) cs -> Forall (each_in (spares rd)) cs -> thistory U fuel (tinitial v n maps arrs) cs = (s, os) -> OSpin ∉ os ->
  target s k = Some (by_, u) -> texec U fuel (TDo (RNewWriter (Some k) isHEAD)) s = (sw, ORet (YHandle (Some k'))) ->
  go_cmd new -> wraps rd new -> texec U fuel (TDo (RB new)) sw = (s1, ORet (YBody (RBody i None))) ->
  each (go_rcmd U) (rest i) -> each (spares rd) (rest i) -> returns U fuel (rest i) s1 s3 r -> s_rps s3 !! r = Some y ->
  forall s4 e s' o, owned_by U fuel rd s3 y ->
  texec U fuel (TDo (RServe r k')) s3 = (s4, ORet (YErr e)) -> e = None \/ push_urls s3 y = [] ->
  texec U fuel (TServe (opening new rest) (Some k) isHEAD) s = (s', o) -> feasible (s_h s') -> let_go U fuel rd s3 s'.
Proof. exact @CloseMain.opened_closes. Qed.
Print Assumptions C65_opening.

Theorem C65_opening_fine : forall (V : Type) (U : uenv V) (fuel : nat) (rd : rid), go_uenv U -> forall v n maps arrs cs s os k by_ u isHEAD sw k' new s1 i rest s3 r y,
  Forall (each_in (go_rcmd U)) cs -> Forall (each_in (spares rd)) cs -> thistory U fuel (tinitial v n maps arrs) cs = (s, os) -> OSpin ∉ os ->
  target s k = Some (by_, u) -> texec U fuel (TDo (RNewWriter (Some k) isHEAD)) s = (sw, ORet (YHandle (Some k'))) ->
  go_cmd new -> wraps rd new -> texec U fuel (TDo (RB new)) sw = (s1, ORet (YBody (RBody i None))) ->
  each (go_rcmd U) (rest i) -> each (spares rd) (rest i) -> returns U fuel (rest i) s1 s3 r -> s_rps s3 !! r = Some y ->
  forall s' l, owned_by U fuel rd s3 y ->
  texec U fuel (TServe (opening new rest) (Some k) isHEAD) s = (s', ORet YUnit) -> s_met s' = s_met s ++ l -> panics_in l = 0%nat -> feasible (s_h s') -> let_go U fuel rd s3 s'.
Proof. exact @CloseMain.opened_fine. Qed.
Print Assumptions C65_opening_fine.

(** ** Examples *)

(** Two copies are served, one to a client whose Writes fail; then the original is closed. *)
Example C65_example_program :
  let U := club (lone (hello plain 3)) in
  let s1 := after U 99 (open_saloon 0%nat 3) [TDo (RB (NewReader 0))] in
  let cs := two_copies in
  let s2 := after U 99 s1 cs in
  let s3 := after U 99 s1 (cs ++ [TDo (RB (Call 1 Close))]) in
  go_uenv U /\ wrapped_in U 99 0 (0%nat, []) s1 1 cs s2 (thistory U 99 s1 cs).2 /\
  holds U 99 s2 1 0 /\ closes_in (h_log (s_h s2)) = [] /\
  wrapped_in U 99 0 (0%nat, []) s1 1 (cs ++ [TDo (RB (Call 1 Close))]) s3 (thistory U 99 s1 (cs ++ [TDo (RB (Call 1 Close))])).2 /\
  (forall j, ~ holds U 99 s3 j 0) /\ closes_in (h_log (s_h s3)) = [EvClose 0 None] /\ released U 0 s3.
Proof.
  cbv zeta. split; [apply club_go, lone_go|].
  split; [apply stream_wrapped; [apply two_copies_go|apply two_copies_spares|by vm_compute]|].
  split; [eexists; vm_compute; reflexivity|]. split; [by vm_compute|].
  split; [apply stream_wrapped; [apply Forall_app; split; [apply two_copies_go|by repeat constructor]|apply Forall_app; split; [apply two_copies_spares|]|by vm_compute]|].
  { apply Forall_cons; split; [|by apply Forall_nil]. by intros [?|[? ?]]. }
  split; [|split; [by vm_compute|]].
  { intros j Hj. pose proof (holds_lt _ _ _ _ _ Hj) as Hlt. revert Hlt. vm_compute (length _). intros Hlt.
    destruct Hj as [x Hx]. destruct j as [|[|[|[|j]]]]; [apply (f_equal snd) in Hx; revert Hx; vm_compute; discriminate..|lia]. }
  apply (released_last _ _ _ None); by vm_compute.
Qed.
Example C65_example_request :
  let U := club (lone (hello plain 3)) in
  let s := after U 99 (open_saloon 0%nat 3) [TDo (RB (NewReader 0))] in
  let sw := (texec U 99 (TDo (RNewWriter (Some 2%nat) false)) s).1 in
  let s3 := after U 99 sw [TDo RNewBuilder; TDo (RBuilder 0 (WithBody (Some 1%nat))); TDo (RBuild 0)] in
  let s' := (texec U 99 (TServe (answering 1) (Some 2%nat) false) s).1 in
  let l := [MRequests "200"; MLatency "200"; MRecvBytes "200" 0; MSendBytes "200" 11; MLatencyHist; MRecvHist 0; MSendHist 11] in
  go_uenv U /\ wrapped_in U 99 0 (0%nat, []) s 1 [] s [] /\ target s 2 = Some (None, 1%nat) /\
  texec U 99 (TDo (RNewWriter (Some 2%nat) false)) s = (sw, ORet (YHandle (Some 4%nat))) /\
  each (go_rcmd U) (answering 1) /\ each (spares 0) (answering 1) /\ returns U 99 (answering 1) sw s3 0 /\
  (exists y, s_rps s3 !! 0%nat = Some y /\ owned_by U 99 0 s3 y) /\
  texec U 99 (TServe (answering 1) (Some 2%nat) false) s = (s', ORet YUnit) /\ s_met s' = s_met s ++ l /\ panics_in l = 0%nat /\ feasible (s_h s') /\
  closes_in (h_log (s_h s3)) = [] /\ released U 0 s' /\ (v_v (world s')).2 = bs "hello world".
Proof.
  cbv zeta. split; [apply club_go, lone_go|]. split; [apply (stream_wrapped []); [by apply Forall_nil|by apply Forall_nil|by vm_compute]|].
  split; [by vm_compute|]. split; [vm_compute; reflexivity|]. split; [apply answering_go|]. split; [apply answering_spares|].
  split; [eapply answering_returns; [apply surjective_pairing|apply no_spin; by vm_compute]|].
  split.
  { eexists. split; [vm_compute; reflexivity|]. intros j Hj. pose proof (holds_lt _ _ _ _ _ Hj) as Hlt. revert Hlt. vm_compute (length _). intros Hlt.
    destruct j as [|[|j]]; [|done|lia]. destruct Hj as [x Hx]. apply (f_equal snd) in Hx. revert Hx. vm_compute. discriminate. }
  split; [vm_compute; reflexivity|]. split; [by vm_compute|]. split; [done|]. split; [by vm_compute|]. split; [by vm_compute|]. split; [|by vm_compute].
  apply (released_last _ _ _ None); by vm_compute.
Qed.
(** To a client whose Writes fail. *)
Example C65_example_opening :
  let U := club (lone (hello plain 3)) in
  let s := open_saloon 0%nat 3 in
  let sw := (texec U 99 (TDo (RNewWriter (Some 1%nat) false)) s).1 in
  let s1 := (texec U 99 (TDo (RB (NewReader 0))) sw).1 in
  let s3 := after U 99 s1 [TDo RNewBuilder; TDo (RBuilder 0 (WithBody (Some 1%nat))); TDo (RBuild 0)] in
  let s4 := (texec U 99 (TDo (RServe 0 4)) s3).1 in
  let s' := (texec U 99 (TServe (opening (NewReader 0) answering) (Some 1%nat) false) s).1 in
  go_uenv U /\ s = tinitial (0%nat, []) 3 [∅; ∅; ∅] [] /\ target s 1 = Some (None, 0%nat) /\
  texec U 99 (TDo (RNewWriter (Some 1%nat) false)) s = (sw, ORet (YHandle (Some 4%nat))) /\
  texec U 99 (TDo (RB (NewReader 0))) sw = (s1, ORet (YBody (RBody 1 None))) /\
  each (go_rcmd U) (answering 1) /\ each (spares 0) (answering 1) /\ returns U 99 (answering 1) s1 s3 0 /\
  (exists y, s_rps s3 !! 0%nat = Some y /\ owned_by U 99 0 s3 y /\ push_urls s3 y = []) /\
  texec U 99 (TDo (RServe 0 4)) s3 = (s4, ORet (YErr (Some ErrShortWrite))) /\
  texec U 99 (TServe (opening (NewReader 0) answering) (Some 1%nat) false) s = (s', ORet YUnit) /\ feasible (s_h s') /\
  closes_in (h_log (s_h s3)) = [] /\ released U 0 s' /\ (v_v (world s')).2 = [].
Proof.
  cbv zeta. split; [apply club_go, lone_go|]. split; [done|].
  split; [by vm_compute|]. split; [vm_compute; reflexivity|]. split; [vm_compute; reflexivity|]. split; [apply answering_go|]. split; [apply answering_spares|].
  split; [eapply answering_returns; [apply surjective_pairing|apply no_spin; by vm_compute]|].
  split.
  { eexists. split; [vm_compute; reflexivity|]. split; [|by vm_compute]. intros j Hj. pose proof (holds_lt _ _ _ _ _ Hj) as Hlt. revert Hlt. vm_compute (length _). intros Hlt.
    destruct j as [|[|j]]; [|done|lia]. destruct Hj as [x Hx]. apply (f_equal snd) in Hx. revert Hx. vm_compute. discriminate. }
  split; [vm_compute; reflexivity|]. split; [vm_compute; reflexivity|]. split; [by vm_compute|]. split; [by vm_compute|]. split; [|by vm_compute].
  apply (released_last _ _ _ None); by vm_compute.
Qed.
