(** * C25: Serve always consumes its Body *)
From stdpp Require Import gmap.
From Verif Require Import ServeSpec WitnessResp.
From Verif Require ServeMain.

(** False: if a server push fails, Serve returns with the Body still open ([n] bytes
    can be read from it). *)
Theorem C25_refuted :
  exists (V : Type) (U : uenv V) fuel s r x k by_ u s' err new i n,
    treaches U fuel s /\ s_rps s !! r = Some x /\ target s k = Some (by_, u) /\
    serving U fuel s r k s' (ORet (YErr (Some err))) new /\ rp_body x = Some i /\ 0 < n /\
    texec U fuel (TDo (RB (Call i BytesRemaining))) s' = (s', ORet (YBody (RInt n))).
Proof. exact ServeMain.push_leaves_open. Qed.
Print Assumptions C25_refuted.

(** False as well if the ResponseWriter panics, here because a status has been sent
    before. *)
Theorem C25_refuted_panic :
  exists (V : Type) (U : uenv V) fuel s r x k by_ u s' new i n,
    treaches U fuel s /\ s_rps s !! r = Some x /\ target s k = Some (by_, u) /\
    serving U fuel s r k s' (OPanic PAssert) new /\ rp_body x = Some i /\ 0 < n /\
    texec U fuel (TDo (RB (Call i BytesRemaining))) s' = (s', ORet (YBody (RInt n))).
Proof. exact ServeMain.panic_leaves_open. Qed.
Print Assumptions C25_refuted_panic.

(** And if the Reader under the Body panics in Read: response.go:97-99 calls Close after
    the body has been written, not in a defer statement.  The Body stays open, and its
    Reader [rd], which can be closed, has not been. *)
Theorem C25_refuted_reader :
  exists (V : Type) (U : uenv V) fuel s r x k by_ u s' e new i n rd v p v',
    treaches U fuel s /\ s_rps s !! r = Some x /\ target s k = Some (by_, u) /\
    serving U fuel s r k s' (OPanic e) new /\ u_hazard U v (XRead rd p) = Some (v', e) /\ rp_body x = Some i /\ 0 < n /\
    texec U fuel (TDo (RB (Call i BytesRemaining))) s' = (s', ORet (YBody (RInt n))) /\
    cp_closer (ev_caps (u_env U) rd) = true /\ Forall not_close (calls_on rd (h_log (s_h s'))).
Proof. exact ServeMain.reader_panic_leaves_open. Qed.
Print Assumptions C25_refuted_reader.

(** But a failed push is the only case in which Serve returns without having closed
    the Body: whatever the Body, the writer and the Reader do, and whatever error
    Serve returns. *)
Theorem C25_closed_unless_push_fails : forall (V : Type) (U : uenv V) (fuel : nat), forall s r x k by_ u s' e new,
  s_rps s !! r = Some x -> target s k = Some (by_, u) -> serving U fuel s r k s' (ORet (YErr e)) new ->
  (exists i, rp_body x = Some i /\ is_closed U fuel s' i) \/
  (exists l err, new = push_events by_ u l /\ pushing (push_urls s x) l (Some (inl err)) /\ e = Some err).
Proof. exact @ServeMain.closes. Qed.
Print Assumptions C25_closed_unless_push_fails.

(** A failing writer: the Body is closed. *)
Definition broken25 : uenv (list nat) := web [] (fun _ => no_caps) (fun _ => (1, Some (External 9))) (fun _ => None) reads_once.
Example C25_example :
  let s := after broken25 9 (start [] 1) (map TDo (ServeMain.with_body [])) in
  (exists x, s_rps s !! 0%nat = Some x /\ rp_body x = Some 1%nat) /\ target s 1 = Some (None, 0%nat) /\
  serving broken25 9 s 0 1 (texec broken25 9 (TDo (RServe 0 1)) s).1 (ORet (YErr (Some (External 9)))) [UHeader None 0 200 None; UWrite None 0 (bs "abc") (inl (1, Some (External 9)))].
Proof. cbv zeta. split; [eexists; split; by vm_compute|]. split; [by vm_compute|]. split; by vm_compute. Qed.
