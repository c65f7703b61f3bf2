(** * C26: Serve transfers headers exactly *)
From stdpp Require Import gmap.
From Verif Require Import ServeSpec WitnessResp.
From Verif Require ServeMain.

(** [h] is the map the writer's Header() returns.  Whenever Serve sends a status at
    all, even if this call panics, [h] has become what it was overridden by all
    the Response's headers except Push ([∪] prefers its left operand), no other
    header map has changed, and before the status nothing but pushes was sent. *)
(* [asked]: the call of WriteHeader on the wrapper, if [k] is one.  *)
Theorem C26_headers : forall (V : Type) (U : uenv V) (fuel : nat), forall s r x k by_ u h X Y s' o new,
  s_rps s !! r = Some x -> target s k = Some (by_, u) -> (forall v, u_map U v u = h) ->
  hview s (rp_hdrs x) = Some X -> view s h = Some Y ->
  serving U fuel s r k s' o new -> status_sent new ->
  (exists l res tail, new = push_events by_ u l ++ asked by_ (rp_code x) ++ UHeader by_ u (rp_code x) res :: tail /\ Forall ordinary tail) /\
  view s' h = Some (delete "Push" X ∪ Y) /\
  (forall m, m <> h -> view s' m = view s m).
Proof. exact @ServeMain.headers. Qed.
Print Assumptions C26_headers.

Example C26_example :
  let U := ServeMain.pushing_web in
  let s := after U 9 (start [] 1) (map TDo (RMap (HSet 0 "X-A" ["old"] 0) :: RMap (HSet 0 "X-B" ["kept"] 0) ::
             ServeMain.with_body [("Push", "/no"); ("X-A", "1"); ("x-a", "2")])) in
  let s' := (texec U 9 (TDo (RServe 0 1)) s).1 in
  let new := [UPush None 0 "/no" (inl (Some ErrNotSupported)); UHeader None 0 200 None; UWrite None 0 (bs "abc") (inl (3, None))] in
  (exists x, s_rps s !! 0%nat = Some x /\ rp_code x = 200 /\ bool_decide (hview s (rp_hdrs x) = Some {[ "Push" := ["/no"]; "X-A" := ["1"; "2"]; "Content-Type" := ["application/octet-stream"]; "Content-Length" := ["3"] ]}) = true) /\
  target s 1 = Some (None, 0%nat) /\ (forall v, u_map U v 0%nat = 0%nat) /\
  bool_decide (view s 0%nat = Some {[ "X-A" := ["old"]; "X-B" := ["kept"] ]}) = true /\
  serving U 9 s 0 1 s' (ORet (YErr None)) new /\ status_sent new /\
  bool_decide (view s' 0%nat = Some {[ "X-A" := ["1"; "2"]; "X-B" := ["kept"]; "Content-Type" := ["application/octet-stream"]; "Content-Length" := ["3"] ]}) = true.
Proof.
  cbv zeta. split; [eexists; split; [by vm_compute|split; by vm_compute]|]. split; [by vm_compute|]. split; [done|]. split; [by vm_compute|].
  split; [split; by vm_compute|]. split; [|by vm_compute]. eexists _, _, _, _. right. left.
Qed.
