(** * C61: the Adaptor counts a panic for every response that the client did not get in full *)
From stdpp Require Import gmap.
From Verif Require Import HonestSpec AdaptorSpec ReplySpec WitnessServe LengthWitness SafeWitness HonestWitness.
From Verif Require Count.

(** The inner Handler returns in the state [sr] a Response with body [i], of which C60
    says that the client gets a beginning [X] of [R].  The client is honest, but it may
    fail at any time, and so may the source of the Body.  Exactly one request is counted.
    If there is a body to send and [X] is not all of [R], one panic is counted and
    OnPanic is called: no truncated response goes unnoticed. *)
Theorem C61_truncated : forall (V : Type) (U : uenv V) (fuel : nat), forall s k by_ u got inner isHEAD s1 k' s2 x s' o sr r z i R all,
  treaches U fuel s -> target s k = Some (by_, u) -> honest U u got -> (forall v b e, got (u_onpanic U v b e).1 = got v) -> (forall v, (u_writeheader U v u 500).2 = None) ->
  request U fuel inner k isHEAD s s1 k' s2 x s' o -> feasible (s_h s') ->
  returns U fuel inner s1 sr r -> s_rps sr !! r = Some z -> rp_body z = Some i -> owns_up U fuel all sr i R ->
  exists X m, got (v_v (world s')) = got (v_v (world sr)) ++ X /\ X `prefix_of` R /\ (bodiless sr k' (rp_code z) = true -> X = []) /\
    s_met s' = s_met s ++ m /\ length (requests_in m) = 1%nat /\
    (all -> bodiless sr k' (rp_code z) = false -> X = R \/ panics_in m = 1%nat /\ exists e, onpanics_in m = [e]).
Proof. exact @Count.truncated. Qed.
Print Assumptions C61_truncated.

(** With bytes in memory nothing need be known of the state. *)
Theorem C61_memory : forall (V : Type) (U : uenv V) (fuel : nat), forall s k by_ u got inner isHEAD s1 k' s2 x s' o sr r z i b,
  treaches U fuel s -> target s k = Some (by_, u) -> honest U u got -> (forall v b e, got (u_onpanic U v b e).1 = got v) -> (forall v, (u_writeheader U v u 500).2 = None) ->
  request U fuel inner k isHEAD s s1 k' s2 x s' o -> feasible (s_h s') ->
  returns U fuel inner s1 sr r -> s_rps sr !! r = Some z -> rp_body z = Some i -> h_b (s_h sr) !! i = Some (BBytes b) ->
  exists X m, got (v_v (world s')) = got (v_v (world sr)) ++ X /\ X `prefix_of` left_in b /\ (bodiless sr k' (rp_code z) = true -> X = []) /\
    s_met s' = s_met s ++ m /\ length (requests_in m) = 1%nat /\
    (bodiless sr k' (rp_code z) = false -> X = left_in b \/ panics_in m = 1%nat /\ exists e, onpanics_in m = [e]).
Proof. exact @Count.truncated_memory. Qed.
Print Assumptions C61_memory.

(** ** Examples *)
(** A Handler that reads two bytes of its Body and then returns it. *)
Definition half_read : handler :=
  HDo (RB (NewString "hello world")) (fun _ => HDo (RB (Call 1 (Read (buf 2)))) (fun _ =>
  HDo RNewBuilder (fun _ => HDo (RBuilder 0 (WithBody (Some 1%nat))) (fun _ => HDo (RBuild 0) (fun _ => HReturn (Some 0%nat)))))).
(** What the client got, and what was counted. *)
Definition counted_on {W} (U : uenv (W * bytes)) (s : state (W * bytes)) (isHEAD : bool) : out reply * bytes * nat * list panic :=
  let x := texec U 99 (TServe half_read (Some 1%nat) isHEAD) s in (x.2, (v_v (world x.1)).2, panics_in (s_met x.1), onpanics_in (s_met x.1)).
(** Room for four bytes, and the [request] made; room enough; HEAD. *)
Example C61_example :
  let U := frugal (lone (hello plain 3)) flush_only 4 (External 5) in
  let s := open_saloon 0%nat 1 in
  treaches U 99 s /\ target s 1 = Some (None, 0%nat) /\ honest U 0 snd /\
  (exists s1 k' s2 x s' o sr z, request U 99 half_read 1 false s s1 k' s2 x s' o /\ feasible (s_h s') /\ returns U 99 half_read s1 sr 0 /\ s_rps sr !! 0%nat = Some z /\
     rp_body z = Some 1%nat /\ h_b (s_h sr) !! 1%nat = Some (BBytes {| by_data := bs "hello world"; by_offset := 2; by_eof := false; by_closed := false |}) /\
     bodiless sr k' (rp_code z) = false) /\
  counted_on U s false = (ORet YUnit, bs "llo ", 1%nat, [PError (External 5)]).
Proof.
  cbv zeta. split.
  { eexists _, _, _, _, [], _. split; [|reflexivity]. intros m x Hx key v Hv. apply lookup_replicate in Hx as [-> _]. by rewrite lookup_empty in Hv. }
  split; [done|]. split; [apply frugal_honest|]. split; [|by vm_compute].
  eexists _, _, _, _, _, _, _, _. split; [split; [apply surjective_pairing|split; [vm_compute; done|split; [vm_compute; reflexivity|]]]|].
  { do 5 (eapply hd_do; [apply surjective_pairing|vm_compute; done|]). eapply (hd_serve _ _ _ _ _ _ (Some (External 5))). vm_compute. reflexivity. }
  split; [vm_compute; done|]. split; [do 5 (eapply rt_do; [apply surjective_pairing|vm_compute; done|]); constructor|]. split; [vm_compute; reflexivity|]. split; [done|]. by vm_compute.
Qed.
Example C61_example_others :
  counted_on (frugal (lone (hello plain 3)) flush_only 40 (External 5)) (open_saloon 0%nat 1) false = (ORet YUnit, bs "llo world", 0%nat, []) /\
  counted_on (frugal (lone (hello plain 3)) flush_only 4 (External 5)) (open_saloon 0%nat 1) true = (ORet YUnit, [], 0%nat, []).
Proof. by vm_compute. Qed.
