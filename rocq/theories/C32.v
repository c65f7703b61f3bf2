(** * C32: NewWriter wraps once and preserves capabilities *)
From stdpp Require Import gmap.
From Verif Require Import RespSpec WitnessResp.
From Verif Require WriterMain.

(** A wrapped writer is returned unchanged. *)
Theorem C32_once : forall (V : Type) (U : uenv V) (fuel : nat), forall s k u isHEAD,
  reports U fuel s k WUnwrap (YHandle (Some u)) -> texec U fuel (TDo (RNewWriter (Some k) isHEAD)) s = (s, ORet (YHandle (Some k))).
Proof. exact @WriterMain.wraps_once. Qed.
Print Assumptions C32_once.

(** Any other is wrapped in a new Writer that has done nothing yet; the client sees nothing. *)
Theorem C32_new : forall (V : Type) (U : uenv V) (fuel : nat), forall s k u isHEAD,
  v_objs (world s) !! k = Some (WRaw u) ->
  exists s' k', texec U fuel (TDo (RNewWriter (Some k) isHEAD)) s = (s', ORet (YHandle (Some k'))) /\
    v_objs (world s) !! k' = None /\ wlog s' = wlog s /\
    reports U fuel s' k' WUnwrap (YHandle (Some u)) /\ reports U fuel s' k' WStatus (YInt 0) /\
    reports U fuel s' k' WBytesWritten (YInt 0) /\ reports U fuel s' k' WSawError (YBool false).
Proof. exact @WriterMain.wraps_new. Qed.
Print Assumptions C32_new.

(** The kind of the wrapper fits the wrapped writer, so that none of the type
    assertions in its methods can fail. *)
Theorem C32_capabilities : forall (V : Type) (U : uenv V) (fuel : nat), forall s k u,
  treaches U fuel s -> reports U fuel s k WUnwrap (YHandle (Some u)) ->
  exists x, v_objs (world s) !! k = Some (WWrap x) /\
    match ww_kind x with
    | KFancy => wc_flusher (u_caps U u) = true /\ wc_closenotifier (u_caps U u) = true /\ wc_hijacker (u_caps U u) = true /\ wc_readerfrom (u_caps U u) = true
    | KFlush => wc_flusher (u_caps U u) = true /\ ~ (wc_closenotifier (u_caps U u) = true /\ wc_hijacker (u_caps U u) = true /\ wc_readerfrom (u_caps U u) = true)
    | KBasic => wc_flusher (u_caps U u) = false
    end.
Proof. exact @WriterMain.capabilities. Qed.
Print Assumptions C32_capabilities.

(** Calling Flush fails for want of the method iff the wrapped writer is no Flusher. *)
Theorem C32_flusher : forall (V : Type) (U : uenv V) (fuel : nat), forall s k u,
  treaches U fuel s -> reports U fuel s k WUnwrap (YHandle (Some u)) ->
  (wc_flusher (u_caps U u) = false <-> texec U fuel (TDo (RWriter k WFlush)) s = (s, OPanic PNil)).
Proof. exact @WriterMain.flusher_iff. Qed.
Print Assumptions C32_flusher.

(** ReadFrom, likewise, is there iff all four interfaces are. *)
Theorem C32_readerfrom : forall (V : Type) (U : uenv V) (fuel : nat), forall s k u b,
  treaches U fuel s -> reports U fuel s k WUnwrap (YHandle (Some u)) ->
  if wc_closenotifier (u_caps U u) && wc_hijacker (u_caps U u) && wc_flusher (u_caps U u) && wc_readerfrom (u_caps U u) then
    (forall x, v_objs (world s) !! k = Some (WWrap x) -> ww_isHEAD x = false -> ww_status x <> 204 ->
     exists e l, wlog (texec U fuel (TDo (RWriter k (WReadFrom b))) s).1 = wlog s ++ e :: l)
  else texec U fuel (TDo (RWriter k (WReadFrom b))) s = (s, OPanic PNil).
Proof. exact @WriterMain.readerfrom_iff. Qed.
Print Assumptions C32_readerfrom.

Definition demo_u : uenv (list nat) := web [] (fun u => match u with 0%nat => all_caps | 1%nat => flush_only | _ => no_caps end) accepts (fun _ => None) reads_once.
Definition demo_s : state (list nat) :=
  after demo_u 9 (start [] 3) [TDo (RNewWriter (Some 1%nat) false); TDo (RNewWriter (Some 2%nat) false); TDo (RNewWriter (Some 3%nat) true)].
Example C32_example :
  treaches demo_u 9 demo_s /\ reports demo_u 9 demo_s 4 WUnwrap (YHandle (Some 0%nat)) /\ reports demo_u 9 demo_s 5 WUnwrap (YHandle (Some 1%nat)) /\
  (texec demo_u 9 (TDo (RWriter 5 WFlush)) demo_s).2 = ORet YUnit /\ (texec demo_u 9 (TDo (RWriter 6 WFlush)) demo_s).2 = OPanic PNil.
Proof. split; [apply after_reaches|]. vm_compute. done. Qed.
