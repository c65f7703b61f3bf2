(** * Vocabulary for a Response used as a template *)
From stdpp Require Import gmap.
From Verif Require Export ReplySpec.

(** The Handler
      resp2, err := resp.Copy(); if err != nil { panic(nil) }; return resp2 *)
Definition from_copy (r : nat) : handler :=
  HDo (RCopy r) (fun o => match o with ORet (YNew (Some r2) None) => HReturn (Some r2) | _ => HPanic None end).

(** What a program may do while the Response [r] with body [i] is used as a template:
    answer requests with copies of it, on any ResponseWriters and whatever comes of it;
    make Bodies and call any methods of all Bodies but [i], those of the copies among
    them; wrap ResponseWriters and use them, but not to read from [i]. *)
Inductive bystander (r i : nat) : tcmd -> Prop :=
| by_request k isHEAD : bystander r i (TServe (from_copy r) (Some k) isHEAD)
| by_body c : (forall f, c <> Call i f) -> bystander r i (TDo (RB c))
| by_copy : bystander r i (TDo (RB (Call i Copy)))
| by_NewWriter k isHEAD : bystander r i (TDo (RNewWriter k isHEAD))
| by_writer k f : f <> WReadFrom i -> bystander r i (TDo (RWriter k f)).

(** A program has run to [s], and all its calls have returned. *)
Definition reached {V} (U : uenv V) (fuel : nat) (s : state V) : Prop :=
  exists v n maps arrs cs os, sound_maps arrs maps /\ Forall (each_in (go_rcmd U)) cs /\ thistory U fuel (tinitial v n maps arrs) cs = (s, os) /\ OSpin ∉ os.

(** The Response [r] is a template for the bytes [R].  Any program [cs] of such steps has
    run since [s].  Then a request that is answered with a copy of [r], on a client that
    accepts everything, gets the status of [r], the header that [r] had in [s] but for
    Push, and all of [R] (nothing for HEAD and 204), and is counted as such.
    [busy]: the source may keep its callers waiting for ever.  [P]: what else is required
    of the program. *)
Definition template {V} (U : uenv V) (fuel : nat) (busy : Prop) (P : rcmd -> Prop) (s : state V) (r i : nat) (R : bytes) : Prop :=
  forall x X cs s3 os k u h got isHEAD Y s' o,
    s_rps s !! r = Some x -> rp_body x = Some i -> hview s (rp_hdrs x) = Some X -> (forall v u, rp_hdrs x <> Some (u_map U v u)) ->
    Forall (bystander r i) cs -> Forall (each_in (go_rcmd U)) cs -> Forall (each_in P) cs ->
    thistory U fuel s cs = (s3, os) -> OSpin ∉ os ->
    target s3 k = Some (None, u) -> accepting U u got -> (forall v, u_map U v u = h) -> (forall v r, (ev_close (u_env U) v r).2 = None) -> view s3 h = Some Y ->
    texec U fuel (TServe (from_copy r) (Some k) isHEAD) s3 = (s', o) -> feasible (s_h s') ->
    let k' : wid := length (v_objs (world s3)) in
    o = OSpin /\ (busy \/ (fuel < length R + 2)%nat) \/
    o = ORet YUnit /\
    got (v_v (world s')) = got (v_v (world s3)) ++ (if isHEAD || (rp_code x =? 204) then [] else R) /\
    statuses_in (sent_by k' (wlog s')) = [(u, rp_code x)] /\
    view s' h = Some (delete "Push" X ∪ Y) /\
    s_met s' = s_met s3 ++ tally (itoa (rp_code x)) (wrap64 (total_accepted (sent_by k' (wlog s')))).
