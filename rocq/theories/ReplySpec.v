(** * Vocabulary for whole requests *)
From stdpp Require Import gmap.
From Verif Require Export DeliverSpec AdaptorSpec.

(** The inner Handler [f], run from [s], returns the Response [r]. *)
Inductive returns {V} (U : uenv V) (fuel : nat) : handler -> state V -> state V -> nat -> Prop :=
| rt_return r s : returns U fuel (HReturn (Some r)) s s r
| rt_do c f o s s1 s2 r :
    texec U fuel (TDo c) s = (s1, o) -> o <> OSpin -> returns U fuel (f o) s1 s2 r -> returns U fuel (HDo c f) s s2 r.

(** What is counted for a request with the given label and number of bytes. *)
Definition tally (label : string) (n : Z) : list metric :=
  [MRequests label; MLatency label; MRecvBytes label 0; MSendBytes label n; MLatencyHist; MRecvHist 0; MSendHist n].

(** The Handler
      body := new; return response.NewBuilder().WithStatus(code).WithBody(body).Build() *)
Definition reply_with (new : cmd) (code : Z) : handler :=
  HDo (RB new) (fun o => match o with
  | ORet (YBody (RBody i None)) =>
      HDo RNewBuilder (fun o => match o with
      | ORet (YHandle (Some b)) =>
          HDo (RBuilder b (WithStatus code)) (fun _ =>
          HDo (RBuilder b (WithBody (Some i))) (fun _ =>
          HDo (RBuild b) (fun o => match o with ORet (YHandle r) => HReturn r | _ => HPanic None end)))
      | _ => HPanic None
      end)
  | _ => HPanic None
  end).
(** [new] makes a Body of the bytes [d]. *)
Definition holding (new : cmd) (d : bytes) : Prop := new = NewBytes d \/ exists str, new = NewString str /\ list_ascii_of_string str = d.
(** The header Build makes for a Body with [n] bytes remaining. *)
Definition plain_header (n : Z) : gmap string (list string) := {[ "Content-Type" := ["application/octet-stream"]; "Content-Length" := [itoa n] ]}.
(** What the Adaptor does about the error [e] of Serve: it calls OnPanic. *)
Definition onpanic {V} (U : uenv V) (v : V) (e : option error) : V * option panic :=
  match e with None => (v, None) | Some e => u_onpanic U v false (PError e) end.
(** What is counted for a request of which Serve returned [e]. *)
Definition counted_as (label : string) (n : Z) (e : option error) : list metric :=
  match e with None => tally label n | Some e => MPanics :: tally label n ++ [MOnPanic false (PError e)] end.
