(** * C63: Builders and Responses are values *)
From stdpp Require Import gmap.
From Verif Require Import ValueSpec TemplateSpec WitnessServe TemplateWitness ValueWitness.
From Verif Require ValueMain.

(** In all theorems the program is [mindful]: it leaves the headers of its Builders and
    Responses to their methods, and does not write into the slices of values in the
    headers of its clients.  C62_changed_header_refuted is what happens otherwise. *)

(** All Builders and Responses have values. *)
Theorem C63_values : forall (V : Type) (U : uenv V) (fuel n0 : nat), clients_among U n0 ->
  forall s, mindfully U fuel n0 s ->
  (forall b, (b < length (s_bds s))%nat -> exists w, builder_is s b w) /\ (forall r, (r < length (s_rps s))%nat -> exists w, response_is s r w).
Proof. exact @ValueMain.have_values. Qed.
Print Assumptions C63_values.

(** Only a Builder's own methods change its value; what is done with the Responses it
    has built, with its copies, and by requests, does not. *)
Theorem C63_builder : forall (V : Type) (U : uenv V) (fuel n0 : nat), clients_among U n0 ->
  forall s b w cs s' os, mindfully U fuel n0 s -> builder_is s b w ->
  Forall (each_in (mindful n0)) cs -> Forall (each_in (others b)) cs -> thistory U fuel s cs = (s', os) -> builder_is s' b w.
Proof. exact @ValueMain.builders_isolated. Qed.
Print Assumptions C63_builder.

(** Nothing changes the value of a Response. *)
Theorem C63_response : forall (V : Type) (U : uenv V) (fuel n0 : nat), clients_among U n0 ->
  forall s r w cs s' os, mindfully U fuel n0 s -> response_is s r w ->
  Forall (each_in (mindful n0)) cs -> thistory U fuel s cs = (s', os) -> response_is s' r w.
Proof. exact @ValueMain.responses_fixed. Qed.
Print Assumptions C63_response.

(** The value of a Builder that is used by the header helpers, WithStatus, WithBody and
    WithError is a function of these calls alone. *)
Theorem C63_fold : forall (V : Type) (U : uenv V) (fuel n0 : nat), clients_among U n0 ->
  forall cs s b w s' os, mindfully U fuel n0 s -> builder_is s b w ->
  Forall (each_in (mindful n0)) cs -> Forall (uses_simply b) cs -> thistory U fuel s cs = (s', os) -> OSpin ∉ os ->
  builder_is s' b (foldl (called U) w (omap (call_on b) cs)).
Proof. exact @ValueMain.folded. Qed.
Print Assumptions C63_fold.

(** All methods, also from within Handlers. *)
Theorem C63_evolves : forall (V : Type) (U : uenv V) (fuel n0 : nat), clients_among U n0 ->
  forall cs s b w s' os, mindfully U fuel n0 s -> builder_is s b w ->
  Forall (each_in (mindful n0)) cs -> Forall (each_in (go_rcmd U)) cs -> thistory U fuel s cs = (s', os) -> OSpin ∉ os ->
  builder_is s' b (evolves U fuel b cs s w).
Proof. exact @ValueMain.evolved. Qed.
Print Assumptions C63_evolves.

(** Build makes a Response of the value, and the Builder is as new. *)
Theorem C63_build : forall (V : Type) (U : uenv V) (fuel n0 : nat), forall s b w s' r, mindfully U fuel n0 s -> builder_is s b w -> texec U fuel (TDo (RBuild b)) s = (s', ORet (YHandle (Some r))) ->
  exists i n, v_body w = Some i /\ exec (wenv U) fuel (s_h s) (Call i BytesRemaining) = (s_h s', ORet (RInt n)) /\ r = length (s_rps s) /\
    response_is s' r (built n w) /\ builder_is s' b new_value.
Proof. exact @ValueMain.builds. Qed.
Print Assumptions C63_build.

(** Copies have the same value, with a copy of the body. *)
Theorem C63_copy_builder : forall (V : Type) (U : uenv V) (fuel n0 : nat), forall s b w s' b2, mindfully U fuel n0 s -> builder_is s b w -> texec U fuel (TDo (RCopyBuilder b)) s = (s', ORet (YNew (Some b2) None)) ->
  b2 = length (s_bds s) /\ exists w2, builder_is s' b2 w2 /\ copy_of w w2 (fun i j => exec (wenv U) fuel (s_h s) (Call i Copy) = (s_h s', ORet (RBody j None))).
Proof. exact @ValueMain.copies_builder. Qed.
Print Assumptions C63_copy_builder.

Theorem C63_copy_response : forall (V : Type) (U : uenv V) (fuel n0 : nat), forall s r w s' r2, mindfully U fuel n0 s -> response_is s r w -> texec U fuel (TDo (RCopy r)) s = (s', ORet (YNew (Some r2) None)) ->
  r2 = length (s_rps s) /\ exists w2, response_is s' r2 w2 /\ copy_of w w2 (fun i j => exec (wenv U) fuel (s_h s) (Call i Copy) = (s_h s', ORet (RBody j None))).
Proof. exact @ValueMain.copies_response. Qed.
Print Assumptions C63_copy_response.

(** From NewBuilder() to the last request that is answered with the Response. *)
Theorem C63_lifetime : forall (V : Type) (U : uenv V) (fuel n0 : nat), clients_among U n0 ->
  forall s s0 b cs s1 os1 s2 r cs2 s3 os2,
  mindfully U fuel n0 s -> texec U fuel (TDo RNewBuilder) s = (s0, ORet (YHandle (Some b))) ->
  Forall (each_in (mindful n0)) cs -> Forall (uses_simply b) cs -> thistory U fuel s0 cs = (s1, os1) -> OSpin ∉ os1 ->
  texec U fuel (TDo (RBuild b)) s1 = (s2, ORet (YHandle (Some r))) ->
  Forall (each_in (mindful n0)) cs2 -> thistory U fuel s2 cs2 = (s3, os2) ->
  let w := foldl (called U) new_value (omap (call_on b) cs) in
  exists i n, v_body w = Some i /\ exec (wenv U) fuel (s_h s1) (Call i BytesRemaining) = (s_h s2, ORet (RInt n)) /\ response_is s3 r (built n w).
Proof. exact @ValueMain.lifetime. Qed.
Print Assumptions C63_lifetime.

(** ** Examples *)
Example C63_example :
  let U := club (lone (hello plain 3)) in
  let s := after U 99 (open_saloon 0%nat 3) (map TDo [RB (NewString "hello world")]) in
  let s0 := (texec U 99 (TDo RNewBuilder) s).1 in
  let s1 := after U 99 s0 setup in
  let s2 := (texec U 99 (TDo (RBuild 0)) s1).1 in
  let s3 := after U 99 s2 (traffic 1) in
  let w := foldl (called U) new_value (omap (call_on 0) setup) in
  clients_among U 3 /\ mindfully U 99 3 s /\ (texec U 99 (TDo RNewBuilder) s).2 = ORet (YHandle (Some 0%nat)) /\
  Forall (each_in (mindful 3)) setup /\ Forall (uses_simply 0) setup /\ OSpin ∉ (thistory U 99 s0 setup).2 /\
  (texec U 99 (TDo (RBuild 0)) s1).2 = ORet (YHandle (Some 1%nat)) /\ Forall (each_in (mindful 3)) (traffic 1) /\
  v_code w = 404 /\ v_header w !! "X-A" = Some ["1"; "2"] /\ v_body w = Some 1%nat /\
  v_header (built 11 w) !! "Content-Length" = Some ["11"] /\ length (s_rps s3) = 5%nat.
Proof.
  cbv zeta. split; [apply club_handed|]. split; [apply (club_plainly _ 99 0%nat); [by apply Forall_singleton|by vm_compute]|]. split; [by vm_compute|].
  split; [apply setup_plain|]. split; [apply setup_simply|]. split; [apply no_spin; by vm_compute|]. split; [by vm_compute|]. split; [apply traffic_plain|].
  split; [by vm_compute|]. split; [by vm_compute|]. split; [by vm_compute|]. split; by vm_compute.
Qed.
Example C63_example_evolves :
  let U := club (lone (hello plain 3)) in
  let s := after U 99 (open_saloon 0%nat 3) before in
  let w := evolves U 99 0 changing s new_value in
  clients_among U 3 /\ mindfully U 99 3 s /\ builder_is s 0 new_value /\ Forall (each_in (mindful 3)) changing /\ Forall (each_in (go_rcmd U)) changing /\
  OSpin ∉ (thistory U 99 s changing).2 /\
  v_code w = 503 /\ v_err w = Some ErrClosed /\ v_body w = Some 1%nat /\ v_header w !! "X-A" = Some ["1"] /\
  v_header w !! "Content-Type" = Some ["application/vnd.google.protobuf"] /\ v_header w !! "Cache-Control" = Some ["no-cache"].
Proof.
  cbv zeta. split; [apply club_handed|]. split; [apply (club_plainly _ 99 0%nat); [do 2 (apply Forall_cons; split; [done|]); by apply Forall_nil|by vm_compute]|].
  split; [by eexists|]. split; [apply changing_plain|]. split; [apply changing_go|]. split; [apply no_spin; by vm_compute|].
  split; [by vm_compute|]. split; [by vm_compute|]. split; [by vm_compute|]. split; [by vm_compute|]. split; by vm_compute.
Qed.
Example C63_example_copies :
  let U := club (lone (hello plain 3)) in
  let s := after U 99 (open_saloon 0%nat 3) (map TDo [RB (NewString "hello world")] ++ respond 1 ++ map TDo [RBuilder 0 (WithBody (Some 1%nat))]) in
  mindfully U 99 3 s /\ (exists w, builder_is s 0 w) /\ (exists w, response_is s 0 w) /\
  (texec U 99 (TDo (RCopyBuilder 0)) s).2 = ORet (YNew (Some 1%nat) None) /\ (texec U 99 (TDo (RCopy 0)) s).2 = ORet (YNew (Some 1%nat) None).
Proof.
  cbv zeta. assert (P : mindfully (club (lone (hello plain 3))) 99 3 (after (club (lone (hello plain 3))) 99 (open_saloon 0%nat 3) (map TDo [RB (NewString "hello world")] ++ respond 1 ++ map TDo [RBuilder 0 (WithBody (Some 1%nat))]))).
  { apply (club_plainly _ 99 0%nat); [|by vm_compute]. cbn [map app respond]. repeat (apply Forall_cons; split; [done|]). by apply Forall_nil. }
  split; [exact P|]. destruct (C63_values _ _ _ _ (club_handed _) _ P) as [H1 H2]. split; [apply H1; vm_compute; lia|]. split; [apply H2; vm_compute; lia|]. split; by vm_compute.
Qed.
