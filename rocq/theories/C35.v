(** * C35: Build transfers ownership and resets the Builder *)
From stdpp Require Import gmap.
From Verif Require Import BuilderSpec WitnessResp.
From Verif Require BuilderMain OwnMain.

(** Whether Build returns or panics after having taken the body, the Builder is a
    new one with the same PageGenerator; other Builders are unchanged. *)
Theorem C35_resets : forall (V : Type) (U : uenv V) (fuel : nat), forall s b x i s' o,
  s_bds s !! b = Some x -> bd_body x = Some i -> texec U fuel (TDo (RBuild b)) s = (s', o) ->
  s_bds s' = <[b := {| bd_gen := bd_gen x; bd_code := 0; bd_hdrs := None; bd_body := None; bd_err := None |}]> (s_bds s).
Proof. exact @BuilderMain.build_resets. Qed.
Print Assumptions C35_resets.

(** After any history, Build: whatever is then done with this Builder, with
    objects made later, with Bodies and Writers, changes no Response and no header
    map that exists now. *)
Theorem C35_fixed : forall (V : Type) (U : uenv V) (fuel : nat), forall s b x i s' o cs s2 os,
  treaches U fuel s -> s_bds s !! b = Some x -> bd_body x = Some i ->
  texec U fuel (TDo (RBuild b)) s = (s', o) -> returns_only U (fun m => (length (s_maps s') <= m)%nat) (bd_gen x) ->
  Forall (keeps_to U (fun b' => b' = b \/ (length (s_bds s') <= b')%nat) (fun m => (length (s_maps s') <= m)%nat)) cs ->
  thistory U fuel s' (map TDo cs) = (s2, os) ->
  (forall r y, s_rps s' !! r = Some y -> s_rps s2 !! r = Some y) /\ (forall m X, view s' m = Some X -> view s2 m = Some X).
Proof. exact @OwnMain.build_fixed. Qed.
Print Assumptions C35_fixed.

(** More generally, a Response whose header map shares no array with others
    changes only by writes to this map. *)
Theorem C35_response_untouched : forall (V : Type) (U : uenv V) (fuel : nat), forall s r y X cs s' os,
  treaches U fuel s -> s_rps s !! r = Some y -> hview s (rp_hdrs y) = Some X -> apart s (rp_hdrs y) ->
  Forall (keeps_to U (leaves_alone U s (rp_hdrs y)) (fun m => rp_hdrs y <> Some m)) cs ->
  thistory U fuel s (map TDo cs) = (s', os) ->
  s_rps s' !! r = Some y /\ hview s' (rp_hdrs y) = Some X.
Proof. exact @OwnMain.response_untouched. Qed.
Print Assumptions C35_response_untouched.

(** In programs that do not make header entries share arrays, this holds of every
    Response at any time: no call on any Builder reaches it. *)
Theorem C35_tidy_response : forall (V : Type) (U : uenv V) (fuel : nat), forall v n maps arrs cs s os r y X cs2 s2 os2,
  sound_maps arrs maps -> distinct (tinitial v n maps arrs) -> Forall tidy cs ->
  thistory U fuel (tinitial v n maps arrs) (map TDo cs) = (s, os) ->
  s_rps s !! r = Some y -> hview s (rp_hdrs y) = Some X ->
  Forall (keeps_to U (fun _ => True) (fun m => rp_hdrs y <> Some m)) cs2 -> thistory U fuel s (map TDo cs2) = (s2, os2) ->
  s_rps s2 !! r = Some y /\ hview s2 (rp_hdrs y) = Some X.
Proof. exact @OwnMain.tidy_response. Qed.
Print Assumptions C35_tidy_response.

Definition prog35 : list rcmd :=
  [RB (NewString "abc"); RNewBuilder; RBuilder 0 (WithStatus 404); RBuilder 0 (WithHeader "x-y" "1" false); RBuilder 0 (WithBody (Some 1%nat))].
Definition later35 : list rcmd :=
  [RBuilder 0 (WithHeader "x-y" "2" true); RBuilder 0 (WithBody (Some 1%nat)); RHeaders 0; RMap (HElem 2 "X-Y" 0 "3"); RBuild 0].
Example C35_example :
  let s := after (web_ok []) 9 (start [] 1) (map TDo prog35) in
  let s' := after (web_ok []) 9 s [TDo (RBuild 0)] in
  let s2 := after (web_ok []) 9 s' (map TDo later35) in
  treaches (web_ok []) 9 s /\ Forall tidy prog35 /\ distinct (start [] 1) /\
  length (s_maps s') = 2%nat /\ length (s_bds s') = 1%nat /\
  Forall (keeps_to (web_ok []) (fun b => b = 0%nat \/ (1 <= b)%nat) (fun m => (2 <= m)%nat)) later35 /\
  (exists y, s_rps s' !! 0%nat = Some y /\ rp_hdrs y = Some 1%nat /\ s_rps s2 !! 0%nat = Some y) /\
  bool_decide (view s' 1%nat = view s2 1%nat /\ (view s2 2%nat ≫= (.!! "X-Y")) = Some ["3"]) = true.
Proof.
  split; [apply after_reaches|]. split; [by repeat constructor|]. split.
  { intros m key m' key' a H. unfold array_of in H. destruct m as [|m]; cbn in H; [by rewrite lookup_empty in H|done]. }
  split; [by vm_compute|]. split; [by vm_compute|]. split; [repeat constructor|]. split; [|by vm_compute].
  eexists. split; [by vm_compute|]. split; by vm_compute.
Qed.
