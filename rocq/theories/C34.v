(** * C34: Build fills in Content-Type and Content-Length, and only if absent *)
From stdpp Require Import gmap.
From Verif Require Import BuilderSpec WitnessResp.
From Verif Require BuilderMain TextFacts.

(** WithHeaders keeps the spelling of the keys: a Content-Type can then be sent twice. *)
Theorem C34_refuted : exists (s : state (list nat)) (r : nat) (x : response) (m : mid) (X : header),
  treaches (web_ok []) 9 s /\ s_rps s !! r = Some x /\ rp_hdrs x = Some m /\ view s m = Some X /\
  X !! "content-type" = Some ["text/plain"] /\ X !! "Content-Type" = Some ["application/octet-stream"] /\
  CanonicalHeaderKey "content-type" = CanonicalHeaderKey "Content-Type".
Proof. exact BuilderMain.spelling. Qed.
Print Assumptions C34_refuted.

(** What Build makes of the header [X] specified so far; the keys are compared as they are spelled. *)
Theorem C34_build : forall (V : Type) (U : uenv V) (fuel : nat), forall s b x X i s' r,
  treaches U fuel s -> s_bds s !! b = Some x -> hview s (bd_hdrs x) = Some X -> bd_body x = Some i ->
  texec U fuel (TDo (RBuild b)) s = (s', ORet (YHandle (Some r))) ->
  exists n h m, exec (wenv U) fuel (s_h s) (Call i BytesRemaining) = (h, ORet (RInt n)) /\
    s_rps s' = s_rps s ++ [{| rp_code := if bd_code x =? 0 then 200 else bd_code x; rp_hdrs := Some m; rp_body := Some i; rp_err := bd_err x |}] /\
    r = length (s_rps s) /\ s_h s' = h /\ (bd_hdrs x = None \/ bd_hdrs x = Some m) /\
    exists X', view s' m = Some X' /\
      (X' !! "Content-Type" = match X !! "Content-Type" with Some v => Some v | None => Some ["application/octet-stream"] end) /\
      (X' !! "Content-Length" = match X !! "Content-Length" with Some v => Some v | None => if 0 <=? n then Some [itoa n] else None end) /\
      (forall key, key <> "Content-Type" -> key <> "Content-Length" -> X' !! key = X !! key).
Proof. exact @BuilderMain.build. Qed.
Print Assumptions C34_build.

Theorem C34_needs_body : forall (V : Type) (U : uenv V) (fuel : nat), forall s b x,
  s_bds s !! b = Some x -> bd_body x = None -> texec U fuel (TDo (RBuild b)) s = (s, OPanic PAssert).
Proof. exact @BuilderMain.build_needs_body. Qed.
Print Assumptions C34_needs_body.

From Coq Require Import DecimalString.
(** Content-Length is the decimal notation of the number. *)
Theorem C34_decimal : forall n, option_map Z.of_int (NilZero.int_of_string (itoa n)) = Some n.
Proof. exact TextFacts.itoa_decimal. Qed.
Print Assumptions C34_decimal.

Definition prog34 : list tcmd := map TDo
  [RB (NewString "abc"); RNewBuilder; RBuilder 0 (WithHeader "x-y" "1" false); RBuilder 0 (WithBody (Some 1%nat))].
Example C34_example :
  let s := after (web_ok []) 9 (start [] 1) prog34 in
  treaches (web_ok []) 9 s /\
  match s_bds s !! 0%nat with Some x => bool_decide (hview s (bd_hdrs x) = Some {[ "X-Y" := ["1"] ]} /\ bd_body x = Some 1%nat) | None => false end = true /\
  (texec (web_ok []) 9 (TDo (RBuild 0)) s).2 = ORet (YHandle (Some 0%nat)) /\
  bool_decide (view (texec (web_ok []) 9 (TDo (RBuild 0)) s).1 1%nat =
    Some (<["Content-Length" := ["3"]]> (<["Content-Type" := ["application/octet-stream"]]> {[ "X-Y" := ["1"] ]}))) = true.
Proof. split; [apply after_reaches|]. by vm_compute. Qed.
