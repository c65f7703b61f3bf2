(** * C27: Serve pushes every Push URL in order *)
From stdpp Require Import gmap.
From Verif Require Import ServeSpec IsSpec WitnessResp.
From Verif Require ServeMain IsMain.

(** All pushes come first, in order ([pushing]), and if one fails this is the result
    and nothing else happens: no header is changed, nothing is sent.  If the writer
    is no Pusher nothing is pushed. *)
Theorem C27_pushes : forall (V : Type) (U : uenv V) (fuel : nat), forall s r x k by_ u s' o,
  s_rps s !! r = Some x -> target s k = Some (by_, u) -> texec U fuel (TDo (RServe r k)) s = (s', o) ->
  exists l e tail,
    wlog s' = wlog s ++ push_events by_ u l ++ tail /\ Forall (fun e => ~ is_push e) tail /\
    (if wc_pusher (u_caps U u) then pushing (push_urls s x) l e else l = [] /\ e = None) /\
    match e with
    | None => True
    | Some (inl err) => o = ORet (YErr (Some err)) /\ tail = [] /\ s_maps s' = s_maps s
    | Some (inr p) => o = OPanic p /\ tail = [] /\ s_maps s' = s_maps s
    end.
Proof. exact @ServeMain.pushes. Qed.
Print Assumptions C27_pushes.

Example C27_example :
  let U := ServeMain.pushing_web in
  let s := after U 9 (start [] 1) (map TDo (ServeMain.with_body [("Push", "/a"); ("Push", "/no"); ("Push", "/b"); ("Push", "/bad"); ("Push", "/c")] ++ [RNewWriter (Some 1%nat) false])) in
  let y := texec U 9 (TDo (RServe 0 2)) s in
  let l := [("/a", inl None); ("/no", inl (Some ErrNotSupported)); ("/b", inl None); ("/bad", inl (Some (External 5)))] in
  (exists x, s_rps s !! 0%nat = Some x /\ push_urls s x = ["/a"; "/no"; "/b"; "/bad"; "/c"] /\ pushing (push_urls s x) l (Some (inl (External 5)))) /\
  target s 2 = Some (Some 2%nat, 0%nat) /\
  y.2 = ORet (YErr (Some (External 5))) /\ wlog y.1 = wlog s ++ push_events (Some 2%nat) 0 l.
Proof.
  cbv zeta. split; [|split; [by vm_compute|split; by vm_compute]].
  assert (H : forall V (s : state V) x urls l e, push_urls s x = urls -> pushing urls l e -> push_urls s x = urls /\ pushing (push_urls s x) l e) by (intros V s x urls l e -> ?; done).
  eexists. split; [vm_compute; reflexivity|]. apply H; [by vm_compute|]. apply pushed_ok, push_unsupported; [done|]. apply pushed_ok, push_fails. done.
Qed.

(** A push that fails is passed over exactly if http.ErrNotSupported is in the chain of
    its error, however deep. *)
Theorem C27_unsupported : forall e t, errors_Is e t = true <-> rtc carries e t.
Proof. exact IsMain.is_chain. Qed.
Print Assumptions C27_unsupported.

Example C27_unsupported_example :
  rtc carries (ExternalWrap 3 (StatFailed ErrNotSupported)) ErrNotSupported /\ errors_Is (ExternalWrap 3 (External 4)) ErrNotSupported = false.
Proof. split; [|by vm_compute]. eapply rtc_l; [constructor|]. eapply rtc_l; [constructor|]. apply rtc_refl. Qed.
