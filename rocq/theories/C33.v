(** * C33: Response status is always between 200 and 999 *)
From stdpp Require Import gmap.
From Verif Require Import BuilderSpec WitnessResp.
From Verif Require CodeProofs.

(** The status of every Response a program can make. *)
Theorem C33_response_status : forall (V : Type) (U : uenv V) (fuel : nat), forall s r,
  treaches U fuel s -> (r < length (s_rps s))%nat ->
  exists c, texec U fuel (TDo (RStatusOf r)) s = (s, ORet (YInt c)) /\ 200 <= c <= 999.
Proof. exact @CodeProofs.response_status. Qed.
Print Assumptions C33_response_status.

(** Codes out of range raise; nothing changes. *)
Theorem C33_bad_status : forall (V : Type) (U : uenv V) (fuel : nat), forall s b c,
  (b < length (s_bds s))%nat -> ~ (200 <= c <= 999) ->
  texec U fuel (TDo (RBuilder b (WithStatus c))) s = (s, OPanic PAssert) /\
  forall err, texec U fuel (TDo (RBuilder b (ErrorPage c err))) s = (s, OPanic PAssert).
Proof. exact @CodeProofs.bad_status. Qed.
Print Assumptions C33_bad_status.

(** So do codes other than 300 to 399 for redirects. *)
Theorem C33_bad_redirect : forall (V : Type) (U : uenv V) (fuel : nat), forall s b c location,
  ~ (300 <= c <= 399) -> texec U fuel (TDo (RBuilder b (RedirectPage c location))) s = (s, OPanic PAssert).
Proof. exact @CodeProofs.bad_redirect. Qed.
Print Assumptions C33_bad_redirect.

(** Build uses the status asked for, or 200. *)
Theorem C33_built_status : forall (V : Type) (U : uenv V) (fuel : nat), forall s b x s' r,
  s_bds s !! b = Some x -> texec U fuel (TDo (RBuild b)) s = (s', ORet (YHandle (Some r))) ->
  texec U fuel (TDo (RStatusOf r)) s' = (s', ORet (YInt (if bd_code x =? 0 then 200 else bd_code x))).
Proof. exact @CodeProofs.built_status. Qed.
Print Assumptions C33_built_status.

Definition prog33 : list tcmd := map TDo
  [RB (NewString "abc"); RNewBuilder; RBuilder 0 (WithStatus 404); RBuilder 0 (WithStatus 1000); RBuilder 0 (WithBody (Some 1%nat)); RBuild 0;
   RBuilder 0 (WithBody (Some 1%nat)); RBuild 0; RBuilder 0 (RedirectPage 307 "/x"); RBuild 0].
Example C33_example :
  let s := after (web_ok []) 9 (start [] 1) prog33 in
  treaches (web_ok []) 9 s /\ map rp_code (s_rps s) = [404; 200; 307].
Proof. split; [apply after_reaches|by vm_compute]. Qed.
